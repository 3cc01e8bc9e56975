"""Lists every item of the crate with the cfg attributes it stands under and the
names it needs from other crates, the std prelude, conditional macros and
conditional functions; the features of Cargo.toml; and the choice between the
two block functions of sha256.  Called by rs2v.py; writes GenBuild.v.  The
target is BuildBase.v.
"""
import os, re
import rs2v
from rs2v import Err, lex, match_delim

ROOTS = ("core", "std", "alloc", "hex", "serde", "serde_test", "serde_json", "schemars", "bitcoin_io", "test")
# in the prelude of std and not of core
PRELUDE = ("Vec", "String", "Box")
PRELUDE_METHODS = ("to_owned", "to_string")
PRELUDE_MACROS = ("vec", "format", "println")
CORE_MACROS = ("assert", "assert_eq", "assert_ne", "debug_assert", "debug_assert_eq", "panic", "unreachable", "unimplemented", "todo", "write", "writeln",
               "matches", "concat", "stringify", "macro_rules", "include_str", "line", "file")
MACRO_FILES = ("internal_macros", "serde_macros")
KINDS = {"fn": "KFn", "mod": "KMod", "trait": "KTrait", "struct": "KStruct", "enum": "KStruct", "const": "KConst", "static": "KConst", "type": "KType"}

def q(s): return '"' + s.replace('"', '""') + '"%string'
def words(ts): return " ".join(t.v if isinstance(t.v, str) else str(t.v[0]) for t in ts)

def pred(toks):
    """a cfg predicate as a term"""
    pos = [0]
    def ev():
        n = toks[pos[0]].v; pos[0] += 1
        nxt = toks[pos[0]].v if pos[0] < len(toks) else None
        if nxt == "(":
            pos[0] += 1; l = []
            while toks[pos[0]].v != ")":
                l.append(ev())
                if toks[pos[0]].v == ",": pos[0] += 1
            pos[0] += 1
            if n == "not":
                if len(l) != 1: raise Err("cfg(not) of several")
                return f"CNot ({l[0]})"
            if n not in ("all", "any"): raise Err(f"cfg({n})")
            return f"{'CAll' if n == 'all' else 'CAny'} [{'; '.join(l)}]"
        if nxt == "=":
            v = toks[pos[0] + 1].v.strip('"'); pos[0] += 2
            if n not in ("feature", "target_arch"): raise Err(f"cfg({n} = ..)")
            return f"{'CFeature' if n == 'feature' else 'CArch'} {q(v)}"
        return f"CFlag {q(n)}"
    r = ev()
    if pos[0] != len(toks): raise Err("cfg: tokens left over")
    return r

class Item:
    def __init__(self, file, path, kind, name, under, own, line):
        self.file, self.path, self.kind, self.name, self.under, self.own, self.line = file, path, kind, name, under, own, line
        self.needs, self.calls, self.intest = [], [], "CFlag " + q("test") in under + own or "CFlag " + q("bench") in under + own
    def need(self, m):
        if m not in self.needs: self.needs.append(m)

class All:
    def __init__(self, src):
        self.items = []
        self.files = sorted(f[:-3] for f in os.listdir(src) if f.endswith(".rs"))
        self.toks = {}
        for f in self.files:
            self.toks[f] = lex(open(os.path.join(src, f + ".rs")).read())
            self.crate_attrs(f)
        self.mods = self.module_cfgs()
        for f in self.files:
            self.walk(f, self.toks[f], [], self.mods.get(f, []))
        self.calls()
        self.cargo = self.manifest(os.path.join(os.path.dirname(os.path.abspath(src)), "Cargo.toml"))
    def crate_attrs(self, f):
        """#![..] of lib.rs: what makes the crate no_std"""
        t = self.toks[f]; i = 0
        while i + 1 < len(t) and t[i].v == "#" and t[i + 1].v == "!":
            e = match_delim(t, i + 2); a = t[i + 3:e - 1]
            if a[0].v == "no_std": self.no_std = "CAll []"
            if a[0].v == "cfg_attr" and a[-2].v == "no_std":
                if a[-3].v != ",": raise Err("cfg_attr")
                self.no_std = pred(a[2:-3])
            i = e
        if f == "lib" and not hasattr(self, "no_std"): self.no_std = "CAny []"
    def module_cfgs(self):
        """cfg attributes of the `mod name;` lines of lib.rs"""
        r, t, i, cf = {}, self.toks["lib"], 0, []
        while i < len(t):
            if t[i].v == "#" and t[i].k == "p":
                j = i + 1
                if t[j].v == "!": j += 1
                e = match_delim(t, j); a = t[j + 1:e - 1]
                if a[0].v == "cfg" and j == i + 1: cf.append(pred(a[2:-1]))
                i = e; continue
            if t[i].v == "mod" and t[i].k == "id" and t[i + 2].v == ";": r[t[i + 1].v] = cf
            if t[i].v in (";", "{", "}"): cf = []
            i += 1
        return r
    # --- items
    def attributes(self, t, i):
        cf = []
        while i < len(t) and t[i].v == "#" and t[i].k == "p":
            j = i + 1
            if t[j].v == "!": j += 1
            e = match_delim(t, j); a = t[j + 1:e - 1]
            if a and a[0].v == "cfg": cf.append(pred(a[2:-1]))
            i = e
        return cf, i
    def add(self, file, path, kind, name, under, own, line):
        x = Item(file, " / ".join(path), kind, name, under, own, line)
        self.items.append(x)
        return x
    def walk(self, file, t, path, under):
        i = 0
        while i < len(t):
            cf, i = self.attributes(t, i)
            if i >= len(t): return
            while t[i].k == "id" and t[i].v in ("pub", "const", "unsafe", "default", "extern") and not (t[i].v == "const" and t[i + 1].v not in ("fn", "unsafe")):
                i += 1
                if t[i].v == "(" and t[i - 1].v == "pub": i = match_delim(t, i)
            v, line = t[i].v, t[i].line
            if v == "macro_rules":
                e = match_delim(t, i + 3); body = t[i + 4:e - 1]
                x = self.add(file, path, "KMacro", t[i + 2].v, under, cf, line)
                k, n = 0, 0
                while k < len(body):
                    k = match_delim(body, k) + 1
                    e2 = match_delim(body, k)
                    arm = body[k + 1:e2 - 1]
                    where = path + [f"{t[i + 2].v}! {n}"]
                    if self.is_items(arm): self.walk(file, arm, where, under + cf)
                    else: self.body(x, arm, where, under + cf)
                    k = e2; n += 1
                    if k < len(body) and body[k].v == ";": k += 1
                i = e
                if i < len(t) and t[i].v == ";": i += 1
                continue
            j = i
            while j < len(t) and not (t[j].k == "p" and t[j].v in (";", "{")):
                j = match_delim(t, j) if t[j].k == "p" and t[j].v in ("(", "[") else j + 1
            if j >= len(t):
                self.body(self.add(file, path, "KOther", "", under, cf, line), t[i:j], path, under + cf); return
            e = match_delim(t, j) if t[j].v == "{" else j + 1
            if v in KINDS:
                x = self.add(file, path, KINDS[v], t[i + 1].v, under, cf, line)
                if v in ("mod", "trait") and t[j].v == "{": self.walk(file, t[j + 1:e - 1], path + [f"{v} {x.name}"], under + cf)
                else: self.body(x, t[i:e], path + [f"{v} {x.name}"], under + cf)
            elif v == "impl":
                h = words(t[i:j])
                x = self.add(file, path, "KImpl" if " for " in h else "KOther", h, under, cf, line)
                self.body(x, t[i:j], path, under + cf)
                self.walk(file, t[j + 1:e - 1], path + [h], under + cf)
            elif v == "crate" and t[i - 1].v == "extern":
                x = self.add(file, path, "KCrate", t[i + 1].v, under, cf, line)
                if x.name not in ("core", "std", "alloc", "test"): x.need(f"NRoot {q(x.name)}")
            else:
                x = self.add(file, path, "KUse" if v == "use" else "KOther", words(t[i:j]).replace(" ", "") if v == "use" else "", under, cf, line)
                self.body(x, t[i:e], path, under + cf)
            i = e
    def is_items(self, t):
        """does this macro arm expand to items?"""
        if not t: return False
        _, i = self.attributes(t, 0)
        while i < len(t) and t[i].v in ("pub", "$"): i = match_delim(t, i + 1) if t[i + 1].v == "(" else i + 1
        if i < len(t) and t[i].v == "crate" and any(a.v == "internal_macros" for a in t[i:i + 4]): return True
        return i < len(t) and t[i].v in ("impl", "fn", "struct", "mod", "trait", "macro_rules")
    def body(self, x, t, path, under):
        """the names needed by these tokens; a statement with cfg is an item of its own"""
        i = 0
        while i < len(t):
            a = t[i]
            if a.v == "#" and a.k == "p" and i + 1 < len(t) and t[i + 1].v in ("[", "!"):
                cf, j = self.attributes(t, i)
                if not cf: i = j; continue
                k = j
                while k < len(t) and not (t[k].k == "p" and t[k].v in (";", "{")):
                    k = match_delim(t, k) if t[k].k == "p" and t[k].v in ("(", "[") else k + 1
                e = match_delim(t, k) if k < len(t) and t[k].v == "{" else k + 1
                y = self.add(x.file, path, "KBlock", "", under, cf, t[j].line)
                self.body(y, t[j:e], path, under + cf)
                i = e; continue
            if a.k == "id":
                nxt = t[i + 1] if i + 1 < len(t) else None
                prv = t[i - 1] if i else None
                n = nxt.v if nxt else None
                first = prv is None or prv.v != "::"
                own = prv is not None and prv.v == "::" and i >= 2 and t[i - 2].v == "crate"
                if n == "::" and a.v in ROOTS and (first or own): x.need(f"NRoot {q(a.v)}")
                if a.v in PRELUDE and first and (prv is None or prv.v not in (".", "struct")): x.need(f"NPrelude {q(a.v)}")
                if prv is not None and prv.v == "." and n == "(":
                    if a.v in PRELUDE_METHODS: x.need(f"NPrelude {q(a.v)}")
                    if a.v == "to_vec": x.need("NHeap")
                if a.v.startswith("_mm_") or a.v == "__m128i": x.need(f"NIntrinsics {q(x.file)}")
                if n == "!" and i + 2 < len(t) and t[i + 2].v in ("(", "[", "{") and not (a.v == "macro_rules"): self.macro(x, a.v, t, i)
                if n == "(" and (prv is None or prv.v != "fn"): x.calls.append(a.v)
                if x.kind == "KUse" and words(t[i:i + 4]) == "core :: arch ::": x.need(f"NArch {q(t[i + 4].v)}")
            i += 1
    def macro(self, x, n, t, i):
        if i and t[i - 1].v == "::":
            # the first segment of the path
            k = i
            while k >= 2 and t[k - 1].v == "::": k -= 2
            segs = [y.v for y in t[k:i] if y.v != "::"]
            if segs[0] == "crate" and segs[1] in MACRO_FILES: x.need(f"NMacro {q(segs[1])} {q(n)}")
            elif (segs[1] if segs[0] == "crate" else segs[0]) not in ROOTS: raise Err(f"{x.file}: macro {'::'.join(segs)}::{n}")
        elif n == "is_x86_feature_detected": x.need("NDetect")
        elif n in PRELUDE_MACROS: x.need(f"NPrelude {q(n)}")
        elif n == "impl_write": x.need(f"NRoot {q('bitcoin_io')}")
        elif n in CORE_MACROS: pass
        else: x.need(f"NMacro {q(x.file)} {q(n)}")
    def calls(self):
        defs = {}
        for x in self.items:
            if x.kind == "KFn" and not x.intest: defs.setdefault(x.name, []).append(x)
        for x in self.items:
            for n in x.calls:
                here = [d for d in defs.get(n, []) if d.file == x.file]
                if here:
                    if all(d.under + d.own for d in here): x.need(f"NFn {q(x.file)} {q(n)}")
                elif defs.get(n) and all(d.under + d.own for d in defs[n]):
                    for f in sorted({d.file for d in defs[n]}): x.need(f"NFn {q(f)} {q(n)}")
    # --- Cargo.toml
    def manifest(self, path):
        s = open(path).read()
        sec = {m[1]: m[2] for m in re.finditer(r"^\[([^\]]+)\]\n(.*?)(?=^\[|\Z)", s, re.M | re.S)}
        optional = [m[1] for m in re.finditer(r"^([\w-]+)\s*=\s*\{[^}\n]*optional\s*=\s*true", sec["dependencies"], re.M)]
        fs = []
        for m in re.finditer(r'^([\w-]+)\s*=\s*\[([^\]]*)\]', sec["features"], re.M):
            on = []
            for e in re.findall(r'"([^"]*)"', m[2]):
                if e.startswith("dep:"): raise Err("dep: in Cargo.toml")
                d = e.split("/")[0]
                if "/" not in e: on.append(e)
                elif d.endswith("?"): pass
                elif d in optional: on.append(d)
            fs.append((m[1], on))
        return fs + [(d, []) for d in optional if d not in [f for f, _ in fs]]
    # --- sha256: which block function
    def dispatch(self):
        t = self.toks["sha256"]
        i = next(i for i in range(len(t)) if t[i].v == "process_block" and t[i - 1].v == "fn" and t[i].k == "id")
        line = t[i].line
        while t[i].v != "{": i += 1
        b = t[i + 1:match_delim(t, i) - 1]
        def want(k, s):
            if words(b[k:k + len(s.split())]) != s: raise Err(f"sha256::process_block: {s} expected")
            return k + len(s.split())
        cf, k = self.attributes(b, 0)
        if len(cf) != 1: raise Err("sha256::process_block: one cfg expected")
        e = match_delim(b, k)
        blk, rest = b[k + 1:e - 1], b[e:]
        def call(ts):
            if ts and ts[-1].v == ";": ts = ts[:-1]
            if ts and ts[0].v == "return": ts = ts[1:]
            uns = False
            if ts and ts[0].v == "unsafe": uns, ts = True, ts[2:-1]
            if [x.v for x in ts[:2]] != ["self", "."] or words(ts[3:]) != "( )": raise Err("sha256::process_block: call expected")
            return ts[2].v, uns
        if blk[0].v != "if": raise Err("sha256::process_block: if expected")
        k = 1
        def atom():
            nonlocal k
            if blk[k].v == "(":
                k += 1; r = disj(); assert blk[k].v == ")"; k += 1
                return f"({r})"
            if blk[k].v == "!": k += 1; return f"negb ({atom()})"
            if blk[k].v in ("true", "false"): k += 1; return blk[k - 1].v
            if blk[k].v == "cfg" and blk[k + 1].v == "!":
                e = match_delim(blk, k + 2); r = f"holds b ({pred(blk[k + 3:e - 1])})"; k = e
                return r
            if blk[k].v != "is_x86_feature_detected": raise Err("sha256::process_block: condition")
            n = blk[k + 3].v.strip('"'); k += 5
            return f"cpu {q(n)}"
        def conj():
            nonlocal k
            l = [atom()]
            while blk[k].v == "&&": k += 1; l.append(atom())
            return " && ".join(l)
        def disj():
            nonlocal k
            l = [conj()]
            while blk[k].v == "||": k += 1; l.append(conj())
            return " || ".join(l) if len(l) > 1 else l[0]
        cond = disj()
        e = match_delim(blk, k)
        if e != len(blk): raise Err("sha256::process_block: else")
        inner = blk[k + 1:e - 1]
        returns = inner[0].v == "return"
        if not returns: raise Err("sha256::process_block: return expected")
        fast, uns = call(inner)
        slow, uns2 = call(rest)
        def term(n, u):
            g = f"(g_sha256_Engine_{n} cfg v_self)"
            return f"run_unsafe b cpu g_simd_cfg g_simd_features g_simd_intrinsics {g}" if u else f"Runs {g}"
        # the unsafe function
        i = next(i for i in range(len(t)) if t[i].v == "process_block_simd_x86_intrinsics" and t[i - 1].v == "fn")
        it = [x for x in self.items if x.file == "sha256" and x.kind == "KFn" and x.name == "process_block_simd_x86_intrinsics"]
        if len(it) != 1: raise Err("sha256: process_block_simd_x86_intrinsics")
        # attributes directly before it
        feats, j = [], i - 1
        while not (t[j].v in ("}", ";") and t[j].k == "p"): j -= 1
        k2 = j + 1
        while t[k2].v == "#":
            e = match_delim(t, k2 + 1); a = t[k2 + 2:e - 1]
            if a[0].v == "target_feature":
                if words(a[1:4]) != "( enable =": raise Err("target_feature")
                feats += a[4].v.strip('"').split(",")
            k2 = e
        j = i
        while t[j].v != "{": j += 1
        ins = []
        for x in t[j:match_delim(t, j)]:
            if x.k == "id" and x.v.startswith("_mm_") and x.v not in ins: ins.append(x.v)
        out = [f"(** #[cfg] and #[target_feature] of process_block_simd_x86_intrinsics and the intrinsics in its body, src/sha256.rs:{t[i].line} *)",
               f"Definition g_simd_cfg : cfg_pred := CAll [{'; '.join(it[0].under + it[0].own)}].",
               "Definition g_simd_features : list string := [" + "; ".join(q(f) for f in feats) + "].",
               "Definition g_simd_intrinsics : list string :=\n  [" + "; ".join(q(f) for f in ins) + "].\n",
               f"(** process_block, src/sha256.rs:{line}: the condition and the choice *)",
               f"Definition g_process_block_cond (b : build) (cpu : string -> bool) : bool := {cond}.",
               "Definition g_process_block_on (b : build) (cpu : string -> bool) (cfg : config) (v_self : engine) : outcome engine :=",
               f"  if holds b ({cf[0]}) && g_process_block_cond b cpu then {term(fast, uns)}\n  else {term(slow, uns2)}.\n"]
        return out
    def run(self):
        out = ["(** Generated by tools/rs2v_build.py from the Rust source and Cargo.toml; do not edit. *)",
               "From Coq Require Import Strings.String.", "From Verif Require Import Base ModelEngine GenBase GenSha256 BuildBase.", "Open Scope list_scope.\n",
               "(** cfg_attr(.., no_std), src/lib.rs *)", f"Definition g_no_std : cfg_pred := {self.no_std}.\n"]
        for f in self.files:
            its = [x for x in self.items if x.file == f]
            out.append(f"(** src/{f}.rs *)\nDefinition g_items_{f} : list item :=\n  [" + ";\n   ".join(
                f"mk_item {x.kind} {q(x.path)} {q(x.name)} [{'; '.join(x.under)}] [{'; '.join(x.own)}] [{'; '.join(x.needs)}] (* {x.line} *)" for x in its) + "].\n")
        out.append("Definition g_crate : list (string * list item) :=\n  [" + "; ".join(f"({q(f)}, g_items_{f})" for f in self.files) + "].\n")
        out.append("(** [features] and the optional dependencies, Cargo.toml *)\nDefinition g_features : list (string * list string) :=\n  [" + ";\n   ".join(
            f"({q(f)}, [{'; '.join(q(x) for x in l)}])" for f, l in self.cargo) + "].\n")
        return "\n".join(out + self.dispatch())
