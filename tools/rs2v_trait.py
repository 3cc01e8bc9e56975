"""Lists the structs, traits and impls of the crate with their parameters,
bounds, fields, derives and associated types, macros expanded, under the cfg
attributes they stand under; tests and benchmarks are left out.  Called by
rs2v.py; writes GenTrait.v.  The target is TraitBase.v.  A trait, attribute or
type that is not known here is an error.
"""
import os
import rs2v
from rs2v import Err, Parser, lex, match_delim, OPEN, CLOSE
from rs2v_build import pred, q
from rs2v_text import World

TRAITS = {"Copy", "Clone", "PartialEq", "Eq", "PartialOrd", "Ord", "Hash", "Default", "Debug", "Display", "LowerHex", "UpperHex", "FromStr",
          "AsRef", "Index", "SliceIndex", "HashEngine", "Tag", "SerdeHash", "Serialize", "Deserialize", "Visitor", "JsonSchema", "FromHex",
          "Error", "Sized", "bitcoin_io::Write", "std::io::Write"}
PRIMS = {"u8", "u16", "u32", "u64", "u128", "usize", "bool", "str"}
CORE = {"PhantomData", "Range", "RangeFrom", "RangeTo", "RangeFull", "RangeInclusive", "RangeToInclusive", "HexToArrayError"}
MACROS = ("hash_type", "hash_trait_impls", "arr_newtype_fmt_impl", "as_ref_impl", "serde_impl", "engine_input_impl")
SKIP = ("use", "extern", "mod", "const", "static", "type", "fn")
ASSOC = ("Digest", "Midstate", "Err", "Error")

def num(e, consts):
    while e.kind in ("Paren",): e = e.e
    if e.kind == "Path" and len(e.segs) == 1 and e.segs[0] in consts: return consts[e.segs[0]]
    if e.kind == "Lit": return e.v
    if e.kind == "Bin" and e.op in "+-*/":
        a, b = num(e.l, consts), num(e.r, consts)
        return {"+": a + b, "-": a - b, "*": a * b, "/": a // b if b else None}[e.op]
    raise Err("array length")

class All:
    def __init__(self, src):
        self.w = World(False)
        self.files = sorted(f[:-3] for f in os.listdir(src) if f.endswith(".rs"))
        self.structs, self.impls, self.traits, self.defs, self.names = [], [], [], {}, {}
        self.src = None
        toks = {f: lex(open(os.path.join(src, f + ".rs")).read()) for f in self.files}
        for f in ("internal_macros", "serde_macros"): self.walk(f, toks[f], [], True)
        self.consts = {}
        for f in self.files: self.names[f], self.consts[f] = self.declared(f, toks[f]), self.constants(toks[f])
        import rs2v_build
        mods = rs2v_build.All(src).mods
        for f in self.files: self.walk(f, toks[f], mods.get(f, []), False)
    def declared(self, f, t):
        r = {t[i + 1].v for i in range(len(t) - 1) if t[i].v == "struct" and t[i].k == "id"} if f not in ("internal_macros",) else set()
        if any(t[i].v == "hash_type" and t[i + 1].v == "!" for i in range(len(t) - 1)): r.add("Hash")
        return r
    def constants(self, t):
        """const NAME: usize = literal;"""
        v = [x.v for x in t]
        return {v[i + 1]: t[i + 5].v[0] if isinstance(v[i + 5], tuple) else v[i + 5] for i in range(len(t) - 6)
                if v[i] == "const" and v[i + 2:i + 5] == [":", "usize", "="] and t[i + 5].k == "int" and v[i + 6] == ";"}
    # --- types
    def ty(self, f, ps, t):
        k = t[0]
        if k == "arr":
            if t[2] is None: return f"TCon \"slice\" [{self.ty(f, ps, t[1])}]"
            n = t[2]
            l = f"TVar {ps.index(n.segs[0])}" if n.kind == "Path" and n.segs[0] in ps else f"TNum {num(n, self.consts[f])}"
            return f"TCon \"array\" [{self.ty(f, ps, t[1])}; {l}]"
        if k == "proj": return f"TProj ({self.ty(f, ps, t[1])}) \"{t[2]}\""
        if k != "path": raise Err(f"{f}.rs: type {t}")
        segs, args = [s for s in t[1] if s != "crate"], t[2]
        a = "[" + "; ".join(self.ty(f, ps, x) for x in args) + "]"
        if segs[0] in ps:
            v = f"TVar {ps.index(segs[0])}"
            return v if len(segs) == 1 else f"TProj ({v}) \"{segs[1]}\""
        if len(segs) == 1 and segs[0] in self.names.get(f, ()): return f"TCon \"{f}::{segs[0]}\" {a}"
        if len(segs) == 2 and segs[1] in self.names.get(segs[0], ()): return f"TCon \"{segs[0]}::{segs[1]}\" {a}"
        if segs[-1] in PRIMS | CORE: return f"TCon \"{segs[-1]}\" {a}"
        raise Err(f"{f}.rs: type {'::'.join(t[1])}")
    def tref(self, f, ps, t):
        if t[0] != "path": raise Err(f"{f}.rs: trait {t}")
        n = t[1][-1]
        if n == "Write": n = "::".join(t[1])
        if n not in TRAITS: raise Err(f"{f}.rs: trait {'::'.join(t[1])}")
        return f"(\"{n}\", [" + "; ".join(self.ty(f, ps, x) for x in t[2]) + "])"
    def bounds(self, f, ps, p, subject):
        """B + B + ..., of the type [subject]"""
        r = []
        while True:
            if p.eat("?"): raise Err("?Sized")
            if p.peek().k == "life": p.i += 1
            else:
                b = self.tref(f, ps, p.type())
                if not b.startswith('("Sized"'): r.append(f"({subject}, {b})")
            if not p.eat("+"): return r
    def generics(self, f, p):
        """<..>: names, which are types, bounds"""
        ps, kinds, todo = [], [], []
        if not p.at("<"): return ps, kinds, []
        p.i += 1
        while True:
            p.split(">", ">")
            if p.eat(">"): break
            if p.eat(","): continue
            if p.peek().k == "life": p.i += 1; continue
            if p.eat("const"):
                ps.append(p.ident()); kinds.append(False); p.want(":"); p.type(); continue
            ps.append(p.ident()); kinds.append(True)
            if p.eat(":"):
                todo.append((len(ps) - 1, p.i))
                self.bounds_skip(p)
        return ps, kinds, [(p.t, todo)]
    def bounds_skip(self, p):
        while True:
            if p.peek().k == "life": p.i += 1
            else: p.type()
            if not p.eat("+"): return
    def gen_bounds(self, f, ps, todo):
        r = []
        for t, l in todo:
            for k, i in l:
                p = Parser(t, self.w); p.i = i
                r += self.bounds(f, ps, p, f"TVar {k}")
        return r
    def where(self, f, ps, p, stop):
        r = []
        if not p.eat("where"): return r
        while p.peek().v not in stop:
            s = self.ty(f, ps, p.type()); p.want(":")
            r += self.bounds(f, ps, p, s)
            if not p.eat(","): break
        return r
    # --- items
    def walk(self, f, t, cfgs, only_macros, own=None):
        i = 0
        while i < len(t):
            cf, derives = [], []
            while i < len(t) and t[i].v == "#" and t[i].k == "p":
                j = i + 1
                if t[j].v == "!": j += 1
                e = match_delim(t, j); a = t[j + 1:e - 1]
                if a and a[0].v == "cfg": cf.append(pred(a[2:-1]))
                if a and a[0].v == "cfg_attr" and any(x.v == "derive" for x in a): raise Err("conditional derive")
                if a and a[0].v == "derive": derives += [x.v for x in a if x.k == "id"][1:]
                i = e
            if i >= len(t): return
            if t[i].v == ";" and t[i].k == "p": i += 1; continue
            under = cfgs + cf
            test = any(x in ('CFlag "test"%string', 'CFlag "bench"%string') or x.startswith('CAll [CFlag "test"') for x in under)
            start = i
            while t[i].k == "id" and t[i].v in ("pub", "unsafe", "default") or (t[i].v == "const" and t[i + 1].v in ("fn", "unsafe")):
                i += 1
                if t[i].v == "(" and t[i - 1].v == "pub": i = match_delim(t, i)
            v, line = t[i].v, t[i].line
            if v == "macro_rules":
                e = match_delim(t, i + 3)
                if only_macros and t[i + 2].v in MACROS:
                    self.defs.setdefault(t[i + 2].v, []).append((under, f, self.w.parse_macro(t[i + 4:e - 1])))
                i = e
                if i < len(t) and t[i].v == ";": i += 1
                continue
            j = i
            while j < len(t) and not (t[j].k == "p" and t[j].v in (";", "{")) and not (t[j].v == "!" and t[j].k == "p" and t[j + 1].v in OPEN):
                j = match_delim(t, j) if t[j].k == "p" and t[j].v in ("(", "[") else j + 1
            if j >= len(t): raise Err(f"{f}.rs:{line}: item")
            if t[j].v == "!":
                e = match_delim(t, j + 1)
                name = t[j - 1].v
                if not only_macros and not test:
                    if name in MACROS:
                        for dcf, src, arms in self.defs[name]:
                            self.w.macros[name] = arms
                            was, self.src = self.src, src
                            self.walk(f, self.w.expand(name, t[j + 2:e - 1], line), under + [x for x in dcf if x not in under], False)
                            self.src = was
                    elif name == "impl_write": self.impl_write(f, t[j + 2:e - 1], under, line)
                    else: raise Err(f"{f}.rs:{line}: macro {name}!")
                i = e
                if i < len(t) and t[i].v == ";": i += 1
                continue
            e = match_delim(t, j) if t[j].v == "{" else j + 1
            if v == "mod" and t[j].v == "{" and not only_macros and not test: self.walk(f, t[j + 1:e - 1], under, False)
            elif not only_macros and not test:
                if v == "impl": self.impl(f, t[i:e], under, line)
                elif v == "trait": self.trait(f, t[i:e], under, line)
                elif v == "struct": self.struct(f, t[i:e], under, derives, line)
                elif v == "fn": self.free(f, t[start:e], under, line)
                elif v in ("enum", "union"): raise Err(f"{f}.rs:{line}: {v}")
                elif v not in SKIP: raise Err(f"{f}.rs:{line}: item {v}")
            i = e
    def free(self, f, t, cfgs, line): pass
    def struct(self, f, t, cfgs, derives, line):
        p = Parser(t, self.w); p.i = 1
        n = p.ident()
        ps, kinds, todo = self.generics(f, p)
        bs = self.gen_bounds(f, ps, todo)
        bs += self.where(f, ps, p, ("{", ";"))
        fields = []
        named = p.at("{")
        if not p.at(";"):
            a = p.i; e = match_delim(p.t, a)
            r = Parser(p.t[a + 1:e - 1], self.w)
            while r.peek().k != "eof":
                while r.at("#"):
                    r.i += 1
                    if r.t[r.i + 1].v == "cfg": raise Err("conditional field")
                    r.i = match_delim(r.t, r.i)
                if r.eat("pub") and r.at("("): r.i = match_delim(r.t, r.i)
                if named: r.ident(); r.want(":")
                fields.append(self.ty(f, ps, r.type())); r.eat(",")
        for d in derives:
            if d not in TRAITS: raise Err(f"derive({d})")
        self.structs.append(f"mk_struct \"{f}::{n}\" [{'; '.join(cfgs)}] [{'; '.join(str(k).lower() for k in kinds)}] [{'; '.join(bs)}]\n"
            f"     [{'; '.join(fields)}]\n     [{'; '.join(chr(34) + d + chr(34) for d in derives)}] (* src/{self.src or f}.rs:{line} *)")
    def trait(self, f, t, cfgs, line):
        p = Parser(t, self.w); p.i = 1
        n = p.ident()
        if n not in TRAITS: raise Err(f"trait {n}")
        if p.at("<"): raise Err("trait with parameters")
        ps = ["Self"]
        bs = self.bounds(f, ps, p, "TVar 0") if p.eat(":") else []
        bs += self.where(f, ps, p, ("{",))
        p.want("{")
        while not p.at("}"):
            if p.at("#"): p.i += 1; p.i = match_delim(p.t, p.i); continue
            v = p.peek().v
            if v == "type":
                p.i += 1; a = p.ident()
                if p.eat(":"): bs += self.bounds(f, ps, p, f"TProj (TVar 0) \"{a}\"")
                p.want(";"); continue
            while not (p.at(";") or p.at("{")):
                p.i = match_delim(p.t, p.i) if p.peek().v in ("(", "[") and p.peek().k == "p" else p.i + 1
            p.i = match_delim(p.t, p.i) if p.at("{") else p.i + 1
        self.traits.append(f"mk_trait \"{n}\"\n     [{'; '.join(bs)}] (* src/{self.src or f}.rs:{line} *)")
    def impl(self, f, t, cfgs, line):
        p = Parser(t, self.w); p.i = 1
        ps, kinds, todo = self.generics(f, p)
        a = p.type()
        if not p.eat("for"): return                     # inherent
        b = p.type()
        bs = self.gen_bounds(f, ps, todo) + self.where(f, ps, p, ("{",))
        tr, own = self.tref(f, ps, a), self.ty(f, ps, b)
        p.want("{")
        assoc = []
        while not p.at("}"):
            if p.at("#"): p.i += 1; p.i = match_delim(p.t, p.i); continue
            if p.peek().v == "type" and p.peek().k == "id":
                p.i += 1; n = p.ident(); p.want("=")
                s = p.type(); p.want(";")
                if n in ASSOC: assoc.append(f"(\"{n}\", {self.ty(f, ps, s)})")
                elif n not in ("Output", "Value"): raise Err(f"{f}.rs:{line}: associated type {n}")
                continue
            while not (p.at(";") or p.at("{")):
                p.i = match_delim(p.t, p.i) if p.peek().v in ("(", "[") and p.peek().k == "p" else p.i + 1
            p.i = match_delim(p.t, p.i) if p.at("{") else p.i + 1
        self.emit(cfgs, bs, tr, own, assoc, f, line)
    def impl_write(self, f, t, cfgs, line):
        """impl_write!(ty, write, flush, T: bound): impl bitcoin_io::Write for ty"""
        parts, d, cur, bars = [], 0, [], 0
        for x in t:
            if x.v == "|" and x.k == "p": bars += 1
            if x.v in OPEN and x.k == "p": d += 1
            if x.v in CLOSE and x.k == "p": d -= 1
            if x.v == "," and x.k == "p" and d == 0 and bars % 2 == 0: parts.append(cur); cur = []
            else: cur.append(x)
        parts.append(cur)
        ps, bs = [], []
        for x in parts[3:]:
            ps.append(x[0].v)
            p = Parser(x, self.w); p.i = 2
            bs += self.bounds(f, ps, p, f"TVar {len(ps) - 1}")
        own = self.ty(f, ps, Parser(parts[0], self.w).type())
        self.emit(cfgs, bs, '("bitcoin_io::Write", [])', own, [], f, line)
    def emit(self, cfgs, bs, tr, own, assoc, f, line):
        self.impls.append(f"mk_impl [{'; '.join(cfgs)}] [{'; '.join(bs)}] {tr} ({own}) [{'; '.join(assoc)}] (* {self.src or f}.rs:{line} *)")
    def run(self):
        def table(n, ty, l): return f"Definition {n} : list {ty} :=\n  [" + ";\n   ".join(l) + "].\n"
        return ("(** Generated by tools/rs2v_trait.py from the Rust source; do not edit. *)\n"
                "From Coq Require Import Strings.String.\nFrom Verif Require Import Base BuildBase TraitBase.\nOpen Scope list_scope. Open Scope string_scope.\n\n"
                + "(** Structs: cfg, which parameters are types, bounds, fields, derives *)\n" + table("g_struct_table", "struct_decl", self.structs)
                + "\n(** Traits: what an implementation implies of Self and its associated types *)\n" + table("g_trait_table", "trait_decl", self.traits)
                + "\n(** Impls of traits: cfg, bounds, trait, type, associated types *)\n" + table("g_impl_table", "impl_decl", self.impls))
