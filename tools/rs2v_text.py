"""Translates the formatting, serde and JSON-schema code: fmt impls of
internal_macros.rs and hmac.rs, Display of FromSliceError, serde_macros.rs, the
impls of SerdeHash, Serialize and Deserialize, json_schema, and core::hash::Hash
of sha256t.  Called by rs2v.py; writes GenText.v.  The target is TextBase.v.

These functions are short and have no loops or assignments, so the translation
goes by shape: an expression of a shape that is not listed here is an error.
"""
import rs2v
from rs2v import Err, Parser, Node

FMT = ("LowerHex", "UpperHex", "Display", "Debug")
CASE = {"LowerHex": "Lower", "UpperHex": "Upper", "Display": "Lower"}
HINT = {"deserialize_str": "AskStr", "deserialize_string": "AskString", "deserialize_bytes": "AskBytes",
        "deserialize_byte_buf": "AskByteBuf", "deserialize_any": "AskAny"}
UNEXPECTED = {"Bytes": "UBytes", "Str": "UStr"}

def lit(s):
    """a string literal, without the quotes, as bytes"""
    if "\\" in s: raise Err("escape in string")
    return "[" + "; ".join(f"x{b:02x}" for b in s.encode()) + "]"
def unquote(n):
    if n.kind != "Str": raise Err("string literal expected")
    return n.v[1:-1]
def is_var(e, n): return e.kind == "Path" and e.segs == [n] and e.q is None
def strip(e):
    """references and parentheses do not change a value"""
    while e.kind in ("Ref", "Paren"): e = e.e
    return e
def tail_of(b):
    """the expression a block without statements stands for"""
    if b.kind != "Block": return b
    if not b.stmts and b.tail is not None: return tail_of(b.tail)
    if len(b.stmts) == 1 and b.tail is None and b.stmts[0].kind == "Expr" and b.stmts[0].e.kind == "Return": return b.stmts[0].e
    return b
def show(s): return s if " " not in s or (s[0] in "([" and rs2v.closes(s)) else f"({s})"

class Text:
    """the functions of one type, or of serde_details"""
    def __init__(self, all_, mod, ty):
        self.all, self.mod, self.ty = all_, mod, ty
        m = all_.w.load(mod)
        self.m = m
        self.gen = {"sha256t": ["T"], "hmac": ["N"]}.get(mod, []) if ty == "Hash" else []
    def fn(self, trait, name):
        f = self.m.fns.get((self.ty, trait, name, None))
        if f is None: raise Err(f"{self.mod}.rs: no {trait}::{name} of {self.ty}")
        return f
    def parse(self, f):
        p = Parser(f.toks, self.all.w); p.i = 2
        if p.at("<"): p.i = p.skip_angle()
        ps = []
        p.want("(")
        while not p.at(")"):
            while p.at("&") or p.at("mut"): p.i += 1
            if p.eat("self"): ps.append("self")
            else:
                pat = p.pattern(); p.want(":"); p.type()
                if pat[0] != "var": raise Err("parameter")
                ps.append(pat[1])
            p.eat(",")
        p.want(")")
        while not p.at("{"): p.i += 1
        saved, self.all.w.macros = self.all.w.macros, f.mod.macros
        b = p.block()
        self.all.w.macros = saved
        return ps, b
    def name(self, trait, n): return f"g_{self.mod}_{self.ty}_{trait}_{n}" if trait else f"g_{self.mod}_{self.ty}_{n}"
    def args(self): return "".join(" v_" + g for g in self.gen)
    def binders(self): return "".join({"T": " (v_T : res engine)", "N": " (v_N : N)"}[g] for g in self.gen)
    def head(self, f): return f"(** {f.trait or ''}{'::' if f.trait else ''}{f.name}, {rs2v.cite(f)} *)\n"
    # --- numbers
    def num(self, e):
        """value of a literal expression, or None"""
        e = strip(e)
        if e.kind == "Lit": return e.v
        if e.kind == "Bin" and e.op in "+-*/":
            a, b = self.num(e.l), self.num(e.r)
            if a is None or b is None or (e.op == "/" and b == 0): return None
            v = {"+": a + b, "-": a - b, "*": a * b, "/": a // b if b else 0}[e.op]
            if v < 0: raise Err("negative constant")
            return v
        return None
    def usize(self, e):
        v = self.num(e)
        if v is not None: return str(v)
        e = strip(e)
        if is_var(e, "N") and "N" in self.gen: return "v_N"
        if e.kind == "Path" and e.segs in (["Self", "LEN"], ["LEN"]): return f"g_{self.mod}_{self.ty}_LEN"
        raise Err("number expected")
    def bytes_of(self, e):
        """an expression whose value is the bytes of self"""
        e = strip(e)
        if e.kind == "Field" and e.f == "0" and is_var(e.e, "self"): return "v_self"
        if e.kind == "MCall" and e.m in ("iter", "as_ref", "as_slice") and not e.args: return self.bytes_of(e.e)
        raise Err("bytes of self expected")
    # --- fmt
    def fmt(self, e, f="f"):
        """text written to the formatter [f]"""
        e = tail_of(e)
        if e.kind == "Paren": return self.fmt(e.e, f)
        if e.kind == "Block":
            out = None
            for s in e.stmts:
                if s.kind != "Expr" or s.e.kind != "Try": raise Err("statement in fmt")
                t = self.fmt(s.e.e, f)
                out = t if out is None else f"then_text ({out}) ({t})"
            if e.tail is None: raise Err("fmt without value")
            return f"then_text ({out}) ({self.fmt(e.tail, f)})"
        if e.kind == "Macro" and e.name == "fmt_hex_exact":
            if len(e.args) != 4 or not is_var(strip(e.args[0]), f): raise Err("fmt_hex_exact!")
            c = strip(e.args[3])
            if c.kind != "Path" or c.segs[-2:-1] != ["Case"] or c.segs[-1] not in ("Lower", "Upper"): raise Err("case")
            return f"fmt_exact v_{f} {self.usize(e.args[1])} {self.bytes_of(e.args[2])} {c.segs[-1]}"
        if e.kind == "Macro" and e.name == "write":
            if not is_var(strip(e.args[0]), f): raise Err("write! to something else")
            return self.pieces(unquote(e.args[1]), e.args[2:])
        if e.kind == "MCall" and e.m == "write_str" and is_var(e.e, f): return f"Ok {lit(unquote(strip(e.args[0])))}"
        if e.kind == "Call" and e.f.kind == "Path" and e.f.segs[-1] == "fmt" and len(e.args) == 2 and is_var(strip(e.args[1]), f):
            return self.shown(e.f.segs[-2], e.args[0], f"v_{f}")
        if e.kind == "Call" and is_var(e.f, "Ok") and strip(e.args[0]).kind == "Tuple": return "Ok []"
        raise Err(f"fmt expression {e.kind}")
    def shown(self, trait, x, f):
        """x in the format of the trait"""
        x = strip(x)
        if trait not in FMT: raise Err(f"format {trait}")
        if is_var(x, "self"):
            self.all.text_fn(self, trait, "fmt")
            return f"{self.name(trait, 'fmt')}{self.args()} v_self {f}"
        if x.kind == "MCall" and x.m == "as_hex":
            if trait not in CASE: raise Err(f"as_hex() as {trait}")
            return f"fmt_as_hex {f} {self.bytes_of(x.e)} {CASE[trait]}"
        raise Err("formatted value")
    def pieces(self, s, args):
        out, args, cur, i = [], list(args), "", 0
        while i < len(s):
            if s[i:i + 2] in ("{{", "}}"): cur += s[i]; i += 2
            elif s[i] == "{":
                j = s.index("}", i)
                spec = s[i + 1:j]; i = j + 1
                tr = {"": ("Display", False), ":#": ("Display", True), ":x": ("LowerHex", False), ":X": ("UpperHex", False),
                      ":#x": ("LowerHex", True), ":#X": ("UpperHex", True), ":?": ("Debug", False), ":#?": ("Debug", True)}.get(spec)
                if tr is None: raise Err(f"format {{{spec}}}")
                if cur: out.append(f"Ok {lit(cur)}"); cur = ""
                x = strip(args.pop(0))
                n = self.number_field(x)
                if n is not None:
                    if tr[0] not in ("Display", "Debug"): raise Err("number in hex")
                    out.append(f"Ok (fmt_usize ({n}))")
                else: out.append(self.shown(tr[0], x, f"(plain {'true' if tr[1] else 'false'})"))
            else: cur += s[i]; i += 1
        if args: raise Err("argument of write! not used")
        if cur or not out: out.append(f"Ok {lit(cur)}")
        t = out[-1]
        for o in reversed(out[:-1]): t = f"then_text ({o}) ({t})"
        return t
    def number_field(self, x):
        if self.ty != "FromSliceError": return None
        if x.kind == "Field" and is_var(x.e, "self") and x.f in ("got", "expected"): return f"{x.f} v_self"
        if x.kind == "MCall" and is_var(x.e, "self") and x.m in ("expected_length", "invalid_length"): return f"g_lib_FromSliceError_{x.m} v_self"
        return None
    # --- serde
    def serde(self, e):
        """expression of type Result, as a computation"""
        e = tail_of(e)
        if e.kind == "Paren": return self.serde(e.e)
        if e.kind == "Return": return self.serde(e.e)
        if e.kind == "If":
            if e.b is None: raise Err("if without else")
            return f"if {self.cond(e.c)} then {self.serde(e.a)} else {self.serde(e.b)}"
        if e.kind == "IfLet":
            x = strip(e.e)
            if not (e.ctor in ("Ok", "Err") and x.kind == "Call" and x.f.kind == "Path" and x.f.segs[-2:] == ["str", "from_utf8"]): raise Err("if let")
            v = self.val(x.args[0])
            n = f"v_{e.p[1]}" if e.p[0] == "var" else "_"
            a, b = ("ROk", "RErr") if e.ctor == "Ok" else ("RErr", "ROk")
            return f"match str_from_utf8 {v} with {a} {n} => {self.serde(e.a)} | {b} _ => {self.serde(e.b)} end"
        if e.kind == "Call" and is_var(e.f, "Err"): return f"Ok (RErr {show(self.error(e.args[0]))})" if not self.needs_text(e.args[0]) else self.with_text(e.args[0])
        if e.kind == "Call" and is_var(e.f, "Ok"): return f"Ok (ROk {self.val(e.args[0])})"
        if e.kind == "MCall" and e.m == "map_err":
            a = e.args[0]
            if a.kind == "Path" and a.segs == ["E", "custom"]: fn = "ECustom"
            elif a.kind == "Closure" and a.p == ("wild",): fn = f"(fun _ => {self.error(tail_of(a.e))})"
            elif a.kind == "Closure" and a.p[0] == "var":
                b = tail_of(a.e)
                if not (b.kind == "Call" and b.f.kind == "Path" and b.f.segs == ["E", "custom"] and is_var(strip(b.args[0]), a.p[1])): raise Err("closure")
                fn = "ECustom"
            else: raise Err("map_err")
            return f"map_err ({self.serde(e.e)}) {fn}"
        if e.kind == "MCall" and self.ty == "trait SerdeHash":
            if is_var(e.e, "s") and e.m == "collect_str" and is_var(strip(e.args[0]), "self"):
                return "collect_str (sh_fmt v_Self v_self (plain false))"
            if is_var(e.e, "s") and e.m == "serialize_bytes": return f"serialize_bytes ({self.indexed(e.args[0])})"
            if is_var(e.e, "d") and e.m in HINT: return f"ask v_d {HINT[e.m]} ({self.visitor(e.args[0])})"
        if e.kind == "Call" and e.f.kind == "Path":
            n, own = e.f.segs[-1], e.f.segs[:-1]
            if n == "from_str" and own in (["Self", "Value"], ["ValueT"], ["FromStr"]) and self.ty.endswith("Visitor"):
                return f"sh_from_str v_ValueT {self.val(e.args[0])}"
            if n == "from_slice_delegated" and own[-1:] in (["SerdeHash"], ["ValueT"], ["Value"]) and self.ty.endswith("Visitor"):
                return f"sh_from_slice_delegated v_ValueT {self.val(e.args[0])}"
            if n == "from_slice" and own in ([self.ty], ["Self"]): return self.all.plain(self.mod, self.ty, None, "from_slice", self.val(e.args[0]))
            if own[-1:] == ["SerdeHash"] and n in ("serialize", "deserialize"):
                return f"g_serde_macros_SerdeHash_{n} ({self.all.dict_name(self)}) " + " ".join(self.val(x) for x in e.args)
        raise Err(f"expression {e.kind}")
    def cond(self, c):
        c = strip(c)
        if c.kind == "Not": return f"negb ({self.cond(c.e)})"
        if c.kind == "Bool": return "true" if c.v else "false"
        if c.kind == "MCall" and c.m == "is_human_readable" and not c.args:
            if is_var(c.e, "s"): return "v_s"
            if is_var(c.e, "d"): return "d_human v_d"
        raise Err("condition")
    def val(self, e):
        e = strip(e)
        if e.kind == "Path" and e.q is None and len(e.segs) == 1 and e.segs[0] in self.vars: return "v_" + e.segs[0]
        raise Err("variable expected")
    def indexed(self, e):
        e = strip(e)
        if e.kind == "Index" and is_var(e.e, "self") and e.i.kind == "Range":
            lo, hi = (None if x is None else self.num(x) for x in (e.i.lo, e.i.hi))
            if (e.i.lo is not None and lo is None) or (e.i.hi is not None and hi is None) or e.i.incl: raise Err("range")
            ix = "RangeFull" if lo is None and hi is None else f"(RangeFrom {lo})" if hi is None else f"(RangeTo {hi})" if lo is None else f"(Range {lo} {hi})"
            return f"sh_index v_Self v_self {ix}"
        raise Err("&self[..] expected")
    def visitor(self, e):
        e = strip(e)
        if e.kind == "Call" and e.f.kind == "Path" and e.f.segs[-1] in ("HexVisitor", "BytesVisitor"): return f"g_serde_macros_{e.f.segs[-1]} v_Self"
        raise Err("visitor")
    def needs_text(self, e):
        return any(x.kind == "Path" and x.segs == ["self"] for x in e.args[1:] for x in [strip(x)])
    def with_text(self, e):
        n, u = e.f.segs, self.error_first(e)
        return f"let* t := g_serde_macros_{self.ty}_expecting in Ok (RErr ({u} t))"
    def error_first(self, e):
        if e.kind != "Call" or e.f.kind != "Path" or e.f.segs[:1] != ["E"]: raise Err("error")
        n, a = e.f.segs[-1], strip(e.args[0])
        if n in ("invalid_value", "invalid_type"):
            if a.kind != "Call" or a.f.kind != "Path" or a.f.segs[-2:-1] != ["Unexpected"]: raise Err("Unexpected")
            u = UNEXPECTED.get(a.f.segs[-1])
            if u is None: raise Err("Unexpected")
            return f"{'EInvalidValue' if n == 'invalid_value' else 'EInvalidType'} ({u} {self.val(a.args[0])})"
        if n == "invalid_length":
            k = self.num(a)
            if k is None:
                if not (a.kind == "MCall" and a.m == "len"): raise Err("length")
                k = f"(len {self.val(a.e)})"
            return f"EInvalidLength {k}"
        raise Err(f"E::{n}")
    def error(self, e):
        first, x = self.error_first(e), strip(e.args[1])
        if x.kind == "Macro" and x.name == "stringify" and len(x.args) == 1 and x.args[0].kind == "Path": return f"{first} {lit('::'.join(x.args[0].segs))}"
        if x.kind == "Str": return f"{first} {lit(unquote(x))}"
        raise Err("expectation")
    # --- JSON schema
    def u32(self, e, env, pre):
        v = self.num(e)
        if v is not None: return str(v)
        e = strip(e)
        if e.kind == "Path" and len(e.segs) == 1 and e.segs[0] in env: return "v_" + e.segs[0]
        if e.kind == "Cast" and e.t == ("path", ["u32"], []): return f"({self.usize(e.e)} mod 2 ^ 32)"
        if e.kind == "Bin" and e.op in "+-*":
            a, b = self.u32(e.l, env, pre), self.u32(e.r, env, pre)
            n = f"t{len(pre)}"
            pre.append(f"let* {n} := checked_{ {'+': 'add', '-': 'sub', '*': 'mul'}[e.op]} cfg 32 {a} {b} in")
            return n
        raise Err("u32 expression")
    def json(self, b):
        env, out = set(), []
        seen = None
        for s in b.stmts:
            if s.kind == "Let" and s.p[0] == "var":
                x = strip(s.e)
                if x.kind == "MCall" and x.m == "into" and x.e.kind == "Call" and x.e.f.kind == "Path" and x.e.f.q == ("path", ["String"], []) and x.e.f.segs == ["json_schema"]:
                    out.append(f"let v_{s.p[1]} := string_schema in"); seen = s.p[1]
                else:
                    pre = []; v = self.u32(s.e, env, pre)
                    out += pre + [f"let v_{s.p[1]} := {v} in"]; env.add(s.p[1])
            elif s.kind == "Expr" and s.e.kind == "Assign" and s.e.op == "" and s.e.l.kind == "Field" and s.e.l.f == "string" and seen and is_var(s.e.l.e, seen):
                pre = []; v = self.opt(s.e.r, lambda x: self.validation(x, env, pre))
                out += pre + [f"let v_{seen} := mk_schema {v} in"]
            else: raise Err("statement in json_schema")
        t = b.tail
        if not (t is not None and t.kind == "MCall" and t.m == "into" and seen and is_var(t.e, seen)): raise Err("json_schema value")
        return "\n  ".join(out + [f"Ok v_{seen}"])
    def opt(self, e, f):
        e = strip(e)
        if is_var(e, "None"): return "None"
        if e.kind == "Call" and is_var(e.f, "Some"): return f"(Some {show(f(e.args[0]))})"
        raise Err("Option")
    def validation(self, e, env, pre):
        e = strip(e)
        if not (e.kind == "Call" and e.f.kind == "Path" and e.f.segs == ["Box", "new"]): raise Err("Box::new")
        s = strip(e.args[0])
        if s.kind != "Struct" or s.path[-1] != "StringValidation" or s.base is not None: raise Err("StringValidation")
        fs = {}
        for n, x in s.fields:      # evaluated in the order written
            fs[n] = self.opt(x, (lambda y: lit(self.owned(y))) if n == "pattern" else (lambda y: self.u32(y, env, pre)))
        if set(fs) != {"max_length", "min_length", "pattern"}: raise Err("StringValidation fields")
        return f"mk_validation {fs['max_length']} {fs['min_length']} {fs['pattern']}"
    def owned(self, e):
        e = strip(e)
        if e.kind == "MCall" and e.m in ("to_owned", "to_string", "into") and not e.args: return unquote(e.e)
        raise Err("string")

class World(rs2v.World):
    text = True
    item_macros = rs2v.World.item_macros | {"arr_newtype_fmt_impl", "serde_impl"}
    def __init__(self, small):
        super().__init__(small)
        self.cfg |= {("feature", "serde"), ("feature", "schemars")}

MACRO = ["sha1", "sha256", "sha384", "sha512", "sha512_256", "ripemd160", "siphash24"]
TYPES = [(m, "Hash") for m in MACRO] + [("sha256", "Midstate"), ("sha256t", "Hash"), ("hmac", "Hash")]

class All:
    def __init__(self, tr):
        self.tr, self.w = tr, World(False)
        for m in ("internal_macros", "serde_macros", "lib"): self.w.load(m)
        self.texts, self.done, self.out, self.busy = {}, set(), [], []
    def of(self, mod, ty):
        if (mod, ty) not in self.texts: self.texts[(mod, ty)] = Text(self, mod, ty)
        return self.texts[(mod, ty)]
    def plain(self, mod, ty, trait, n, *args):
        """a call of a function of GenTypes.v, as a computation"""
        o = self.tr.translate(rs2v.target(self.tr, (mod, ty, trait, n)))
        c = rs2v.fname(o.sig, o) + (" cfg" if o.cfg else "") + "".join(f" v_{g}" for g in o.eps) + "".join(" " + a for a in args)
        return c if o.mon else f"Ok ({c})"
    def text_fn(self, t, trait, n):
        """a fmt function, after the ones it calls"""
        f = t.fn(trait, n)
        if f in self.done: return
        if f in self.busy: raise Err(f"{rs2v.cite(f)}: recursive fmt")
        self.busy.append(f)
        try:
            ps, b = t.parse(f)
            if ps[0] != "self" or len(ps) != 2: raise Err("parameters of fmt")
            body = t.fmt(b, ps[1])
        except Err as e: raise Err(f"{rs2v.cite(f)} {trait}: {e}")
        self.done.add(f)
        ty = "from_slice_error" if t.ty == "FromSliceError" else "bytes"
        self.out.append(t.head(f) + f"Definition {t.name(trait, n)}{t.binders()} (v_self : {ty}) (v_{ps[1]} : formatter) : res bytes :=\n  {body}.\n")
    def dict_name(self, t): return f"g_{t.mod}_{t.ty}_SerdeHash cfg{t.args()}"
    def generics(self):
        """serde_macros.rs"""
        for v in ("HexVisitor", "BytesVisitor"):
            t = self.of("serde_macros", v)
            have = {k[2] for k in t.m.fns if k[0] == v and k[1] == "Visitor"}
            if not have <= {"expecting", "visit_str", "visit_bytes"}: raise Err(f"{v}: methods {sorted(have)}")
            f = t.fn("Visitor", "expecting")
            ps, b = t.parse(f)
            self.out.append(t.head(f) + f"Definition g_serde_macros_{v}_expecting : res bytes :=\n  {t.fmt(b, ps[1])}.\n")
            fields = []
            for n in ("visit_str", "visit_bytes"):
                if n not in have: fields.append("None"); continue
                f = t.fn("Visitor", n)
                ps, b = t.parse(f)
                t.vars = set(ps[1:])
                if isinstance(b, Node) and b.kind == "Block" and b.tail is not None and b.tail.kind == "IfLet" and b.tail.p[0] == "var": t.vars.add(b.tail.p[1])
                try: body = t.serde(b)
                except Err as e: raise Err(f"{rs2v.cite(f)}: {e}")
                self.out.append(t.head(f) + f"Definition g_serde_macros_{v}_{n} (v_ValueT : serde_hash) (v_{ps[1]} : bytes) : res (result bytes serde_error) :=\n  {body}.\n")
                fields.append(f"(Some (g_serde_macros_{v}_{n} v_ValueT))")
            self.out.append(f"(** impl de::Visitor for {v}, src/serde_macros.rs *)\nDefinition g_serde_macros_{v} (v_ValueT : serde_hash) : visitor :=\n"
                            f"  mk_visitor g_serde_macros_{v}_expecting {' '.join(fields)}.\n")
        t = self.of("serde_macros", "trait SerdeHash")
        for n, p, ret in (("serialize", " (v_self : bytes) (v_s : bool)", "serialized"), ("deserialize", " (v_d : deserializer)", "(result bytes serde_error)")):
            f = t.fn(None, n)
            ps, b = t.parse(f)
            if ps != (["self", "s"] if n == "serialize" else ["d"]): raise Err("parameters of " + n)
            t.vars = set(ps)
            try: body = t.serde(b)
            except Err as e: raise Err(f"{rs2v.cite(f)}: {e}")
            self.out.append(t.head(f) + f"Definition g_serde_macros_SerdeHash_{n} (v_Self : serde_hash){p} : res {ret} :=\n  {body}.\n")
    def serde(self, t):
        f = t.fn("SerdeHash", "from_slice_delegated")
        ps, b = t.parse(f); t.vars = set(ps)
        self.out.append(t.head(f) + f"Definition {t.name('SerdeHash', 'from_slice_delegated')}{t.binders()} (v_{ps[0]} : bytes) : res (result bytes from_slice_error) :=\n  {t.serde(b)}.\n")
        if set(k[2] for k in t.m.fns if k[0] == t.ty and k[1] == "SerdeHash") != {"from_slice_delegated"}: raise Err("SerdeHash overridden")
        n = t.usize(t.m.consts[(t.ty, "N")][1])
        a = t.args()
        ix = self.plain(t.mod, t.ty, "IndexI", "index", "h", "i") if t.mod != "hmac" else \
             "match i with RangeFull => " + self.plain("hmac", "Hash", "IndexRangeFull", "index", "h", "tt") + " | _ => Panic PUnreachable end"
        self.out.append(f"(** impl SerdeHash for {t.mod}::{t.ty}, with its supertraits *)\n"
            f"Definition g_{t.mod}_{t.ty}_SerdeHash (cfg : config){t.binders()} : serde_hash :=\n"
            f"  mk_serde_hash {n} ({t.name('SerdeHash', 'from_slice_delegated')}{a}) (fun s => {self.plain(t.mod, t.ty, 'FromStr', 'from_str', 's')})\n"
            f"    ({t.name('Display', 'fmt')}{a}) (fun h i => {ix}).\n")
        for tr, n, p, ret in (("Serialize", "serialize", " (v_self : bytes) (v_s : bool)", "serialized"),
                              ("Deserialize", "deserialize", " (v_d : deserializer)", "(result bytes serde_error)")):
            f = t.fn(tr, n)
            ps, b = t.parse(f)
            if ps != (["self", "s"] if n == "serialize" else ["d"]): raise Err("parameters of " + n)
            t.vars = set(ps)
            self.out.append(t.head(f) + f"Definition {t.name(tr, n)} (cfg : config){t.binders()}{p} : res {ret} :=\n  {t.serde(b)}.\n")
    def schema(self, t):
        f = t.fn("JsonSchema", "schema_name")
        ps, b = t.parse(f)
        self.out.append(t.head(f) + f"Definition {t.name(None, 'schema_name')} : bytes :=\n  {lit(t.owned(tail_of(b)))}.\n")
        f = t.fn("JsonSchema", "json_schema")
        ps, b = t.parse(f)
        try: body = t.json(b)
        except Err as e: raise Err(f"{rs2v.cite(f)}: {e}")
        self.out.append(t.head(f) + f"Definition {t.name(None, 'json_schema')} (cfg : config){t.binders()} : res schema :=\n  {body}.\n")
    def core_hash(self, t):
        f = t.fn("Hash", "hash")
        ps, b = t.parse(f)
        e = tail_of(b)
        if e.kind == "Block" and len(e.stmts) == 1 and e.tail is None: e = e.stmts[0].e
        if not (e.kind == "MCall" and e.m == "hash" and len(e.args) == 1 and is_var(strip(e.args[0]), ps[1])): raise Err("core::hash::Hash")
        x = strip(e.e)
        if x.kind == "Index" and x.i.kind == "Range" and x.i.lo is None and x.i.hi is None: c = f"slice_hash {t.bytes_of(x.e)}"
        elif x.kind == "MCall": c = f"slice_hash {t.bytes_of(x)}"
        else: c = f"array_hash {t.bytes_of(x)}"
        self.out.append(t.head(f) + f"Definition {t.name(None, 'core_hash')}{t.binders()} (v_self : bytes) : list hasher_call :=\n  {c}.\n")
    def run(self):
        e = self.of("lib", "FromSliceError")
        self.text_fn(e, "Display", "fmt")
        self.generics()
        for mod, ty in TYPES:
            t = self.of(mod, ty)
            for tr in FMT: self.text_fn(t, tr, "fmt")
            self.serde(t)
            if ty == "Hash": self.schema(t)
            if mod == "sha256t": self.core_hash(t)
        return ("(** Generated by tools/rs2v_text.py from the Rust source; do not edit. *)\n"
                "From Verif Require Import Base ModelEngine ModelTypes ModelFmt ModelValues GenBase GenLib GenSha256 GenSha256t GenTypes TextBase.\n\n"
                + "\n".join(self.out))
