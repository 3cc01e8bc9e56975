"""Lists the fields of the structs with their visibility, and every function of
the crate with its visibility, owner, and the crate's types it takes and gives
(by value, by shared or by exclusive reference); tests and benchmarks are left
out.  Called by rs2v.py; writes GenApi.v.  The target is ApiBase.v.
"""
import rs2v_trait
from rs2v import Err, Parser, match_delim
from rs2v_build import pred, q

class Api(rs2v_trait.All):
    def __init__(self, src):
        self.fields, self.fns, self.owner, self.trait_ = [], [], "", ""
        super().__init__(src)
    def vis(self, p):
        if not p.eat("pub"): return "Private"
        if p.at("("): p.i = match_delim(p.t, p.i); return "InCrate"
        return "Public"
    def name(self, f, segs):
        s = [x for x in segs if x != "crate"]
        if s == ["Self"]: return self.owner or "Self"
        if len(s) == 1 and s[0] in self.names.get(f, ()): return f"{f}::{s[0]}"
        return "::".join(s)
    def mentions(self, f, t, mode="Own"):
        """the names in a type, each with how it is reached"""
        if t is None or t[0] == "unit": return []
        if t[0] == "ref": return self.mentions(f, t[2], "Exclusive" if t[1] and mode != "Shared" else "Shared")
        if t[0] == "ptr": return self.mentions(f, t[1], "Exclusive")
        if t[0] == "arr": return self.mentions(f, t[1], mode)
        if t[0] == "tup": return [x for y in t[1] for x in self.mentions(f, y, mode)]
        if t[0] == "proj": return []
        if t[0] != "path": raise Err(f"{f}.rs: type {t}")
        return [(mode, self.name(f, t[1]))] + [x for y in t[2] for x in self.mentions(f, y, mode)]
    def struct(self, f, t, cfgs, derives, line):
        p = Parser(t, self.w); p.i = 1
        n = p.ident()
        self.generics(f, p); self.where(f, [], p, ("{", ";", "("))
        named, k = p.at("{"), 0
        if p.at(";"): return
        e = match_delim(p.t, p.i)
        r = Parser(p.t[p.i + 1:e - 1], self.w)
        while r.peek().k != "eof":
            while r.at("#"): r.i = match_delim(r.t, r.i + 1)
            v = self.vis(r)
            fn = r.ident() if named else str(k)
            if named: r.want(":")
            r.type(); r.eat(","); k += 1
            self.fields.append(f"mk_field {q(f + '::' + n)} {q(fn)} {v} (* src/{self.src or f}.rs:{line} *)")
    def function(self, f, p, vis, cfgs, line):
        """p at the name"""
        n = p.ident()
        if p.at("<"): self.skip_angles(p)
        p.want("(")
        takes = []
        while not p.at(")"):
            if p.at("&") and (p.peek(1).v == "self" or p.peek(1).v == "mut" and p.peek(2).v == "self"):
                takes.append(("Exclusive" if p.peek(1).v == "mut" else "Shared", self.owner or "Self"))
                p.i += 3 if p.peek(1).v == "mut" else 2
            elif p.peek().v == "self" or p.peek().v == "mut" and p.peek(1).v == "self":
                takes.append(("Own", self.owner or "Self")); p.i += 1 if p.peek().v == "self" else 2
            else:
                p.eat("mut"); p.ident(); p.want(":"); takes += self.mentions(f, p.type())
            p.eat(",")
        p.want(")")
        gives = self.mentions(f, p.type()) if p.eat("->") else []
        while not (p.at(";") or p.at("{")): p.i = match_delim(p.t, p.i) if p.at("[") or p.at("(") else p.i + 1
        p.i = match_delim(p.t, p.i) if p.at("{") else p.i + 1
        self.add(n, vis, cfgs, takes, gives, f, line)
    def skip_angles(self, p):
        d = 0
        while True:
            v = p.peek().v if p.peek().k == "p" else None
            d += {"<": 1, ">": -1, ">>": -2}.get(v, 0); p.i += 1
            if d <= 0: return
    def add(self, n, vis, cfgs, takes, gives, f, line):
        def l(x): return "[" + "; ".join(f"({m}, {q(s)})" for m, s in x) + "]"
        self.fns.append(f"mk_fn {q(f)} {q(self.owner)} {q(self.trait_)} {q(n)} [{'; '.join(cfgs)}] {vis} {l(takes)} {l(gives)} (* {self.src or f}.rs:{line} *)")
    def body(self, f, t, cfgs, default):
        p = Parser(t, self.w)
        while p.peek().k != "eof":
            cf, test = [], False
            while p.at("#"):
                e = match_delim(p.t, p.i + 1); a = p.t[p.i + 2:e - 1]
                if a and a[0].v == "cfg": cf.append(pred(a[2:-1]))
                p.i = e
            if p.peek().k == "eof": break
            line = p.peek().line
            v = self.vis(p)
            if default: v = default
            while p.peek().v in ("unsafe", "const") and p.peek(1).v in ("unsafe", "fn"): p.i += 1
            if p.eat("fn"): self.function(f, p, v, cfgs + cf, line)
            elif p.peek().v in ("const", "type"):
                while not p.at(";"): p.i = match_delim(p.t, p.i) if p.peek().k == "p" and p.peek().v in ("(", "[", "{") else p.i + 1
                p.i += 1
            else:
                while not p.at("!"):
                    if p.peek().k == "eof": raise Err(f"{f}.rs:{line}: item")
                    p.i += 1
                name = p.t[p.i - 1].v; p.i += 1
                e = match_delim(p.t, p.i)
                for dcf, src, arms in self.defs[name]:
                    self.w.macros[name] = arms
                    was, self.src = self.src, src
                    self.body(f, self.w.expand(name, p.t[p.i + 1:e - 1], line), cfgs + cf + [x for x in dcf if x not in cfgs], default)
                    self.src = was
                p.i = e; p.eat(";")
    def impl(self, f, t, cfgs, line):
        p = Parser(t, self.w); p.i = 1
        self.generics(f, p)
        a, b = p.type(), None
        if p.eat("for"): b = p.type()
        while not p.at("{"): p.i += 1
        self.owner = self.name(f, (b or a)[1])
        self.trait_ = ("::".join(a[1]) if a[1][-1] == "Write" else a[1][-1]) if b else ""
        self.body(f, p.t[p.i + 1:match_delim(p.t, p.i) - 1], cfgs, "Public" if b else None)
        self.owner = self.trait_ = ""
    def trait(self, f, t, cfgs, line):
        self.trait_ = t[1].v
        i = next(k for k in range(len(t)) if t[k].v == "{" and t[k].k == "p")
        self.body(f, t[i + 1:-1], cfgs, "Public")
        self.trait_ = ""
    def free(self, f, t, cfgs, line):
        self.body(f, t, cfgs, None)
    def impl_write(self, f, t, cfgs, line):
        ty = Parser(t, self.w).type()
        self.owner, self.trait_ = self.name(f, ty[1]), "bitcoin_io::Write"
        for n in ("write", "flush"): self.add(n, "Public", cfgs, [("Exclusive", self.owner)], [], f, line)
        self.owner = self.trait_ = ""
    def run(self):
        def table(n, ty, l): return f"Definition {n} : list {ty} :=\n  [" + ";\n   ".join(l) + "].\n"
        return ("(** Generated by tools/rs2v_api.py from the Rust source; do not edit. *)\n"
                "From Coq Require Import Strings.String.\nFrom Verif Require Import Base BuildBase ApiBase.\nOpen Scope list_scope. Open Scope string_scope.\n\n"
                "(** Fields: struct, name, visibility *)\n" + table("g_fields_table", "field_decl", self.fields)
                + "\n(** Functions: file, type, trait, name, cfg, visibility, types taken, types given *)\n" + table("g_fn_table", "fn_decl", self.fns))
