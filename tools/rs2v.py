#!/usr/bin/env python3
"""Translates functions of the Rust source text into Gallina.

usage: rs2v.py [SRC_DIR [OUT_DIR]]     (default /repo/src, rocq/theories)

Writes Gen*.v.  The translation is direct: every local variable x becomes v_x
(assignment = rebinding), an operation that can panic becomes a bind of the
[res] monad, in Rust's order of evaluation; `while` becomes a recursive function
with fuel; `for` becomes one of the loop combinators of GenBase.v; macros are
expanded as macro_rules does.  Types are inferred (integer literals get the
width that Rust gives them); anything outside the subset is an error.
"""
import copy, os, re, sys

SRC = sys.argv[1] if len(sys.argv) > 1 else "/repo/src"
OUT = sys.argv[2] if len(sys.argv) > 2 else os.path.join(os.path.dirname(os.path.abspath(__file__)), "..", "rocq", "theories")

class Err(Exception):
    pass

# ---------------------------------------------------------------- lexer
class Tok:
    __slots__ = ("k", "v", "line")
    def __init__(self, k, v, line): self.k, self.v, self.line = k, v, line
    def __repr__(self): return f"{self.v}@{self.line}"

PUNCT = ["<<=", ">>=", "..=", "...", "::", "->", "=>", "==", "!=", "<=", ">=", "&&", "||", "+=", "-=", "*=", "/=", "%=", "^=", "&=", "|=", "<<", ">>", ".."]
def lex(s):
    out, i, line = [], 0, 1
    while i < len(s):
        c = s[i]
        if c == "\n": line += 1; i += 1; continue
        if c.isspace(): i += 1; continue
        if s.startswith("//", i):
            while i < len(s) and s[i] != "\n": i += 1
            continue
        if s.startswith("/*", i):
            j = s.index("*/", i); line += s.count("\n", i, j); i = j + 2; continue
        if c == '"':
            j = i + 1
            while s[j] != '"': j += 2 if s[j] == "\\" else 1
            line0 = line; line += s.count("\n", i, j)
            out.append(Tok("str", s[i:j + 1], line0)); i = j + 1; continue
        m = re.match(r"b?'(\\.[^']*|[^'\\])'", s[i:])
        if m: out.append(Tok("char", m[0], line)); i += len(m[0]); continue
        m = re.match(r"'[A-Za-z_]\w*", s[i:])
        if m: out.append(Tok("life", m[0], line)); i += len(m[0]); continue
        m = re.match(r"(0x[0-9a-fA-F_]+?|0b[01_]+?|[0-9][0-9_]*?)(u8|u16|u32|u64|usize|i32|i64)?(?![0-9a-zA-Z_])", s[i:])
        if m: out.append(Tok("int", (int(m[1].replace("_", ""), 0), m[2]), line)); i += len(m[0]); continue
        m = re.match(r"[A-Za-z_]\w*", s[i:])
        if m: out.append(Tok("id", m[0], line)); i += len(m[0]); continue
        for p in PUNCT:
            if s.startswith(p, i): break
        else: p = c
        out.append(Tok("p", p, line)); i += len(p)
    return out

OPEN, CLOSE = {"(": ")", "[": "]", "{": "}"}, {")", "]", "}"}
def match_delim(t, i):
    """index after the group that opens at i"""
    d = 0
    while True:
        if t[i].k == "p":
            if t[i].v in OPEN: d += 1
            elif t[i].v in CLOSE:
                d -= 1
                if d == 0: return i + 1
        i += 1

# ---------------------------------------------------------------- syntax
class Node:
    def __init__(self, kind, line=0, **kw):
        self.kind, self.line, self.ty = kind, line, None
        self.__dict__.update(kw)
    def __repr__(self): return f"{self.kind}({ {k: v for k, v in self.__dict__.items() if k not in ('kind','line','ty')} })"

BIN = [["||"], ["&&"], ["==", "!=", "<", ">", "<=", ">="], ["|"], ["^"], ["&"], ["<<", ">>"], ["+", "-"], ["*", "/", "%"]]
ASSIGN = ["=", "+=", "-=", "*=", "/=", "%=", "^=", "&=", "|=", "<<=", ">>="]

class Parser:
    def __init__(self, toks, world=None):
        self.t, self.i, self.w = toks, 0, world
    def peek(self, o=0): return self.t[self.i + o] if self.i + o < len(self.t) else Tok("eof", "", 0)
    def at(self, v, o=0): x = self.peek(o); return x.k in ("p", "id") and x.v == v
    def eat(self, v):
        if self.at(v): self.i += 1; return True
        return False
    def want(self, v):
        if not self.eat(v): raise Err(f"expected {v!r}, found {self.peek()}")
    def ident(self):
        x = self.peek()
        if x.k != "id": raise Err(f"identifier expected, found {x}")
        self.i += 1; return x.v
    def split(self, a, b):
        """split a two-character token when only its first character is wanted"""
        x = self.peek()
        if x.k == "p" and x.v == a + b: self.t = self.t[:self.i] + [Tok("p", a, x.line), Tok("p", b, x.line)] + self.t[self.i + 1:]

    # types
    def type(self):
        self.split("&", "&")
        if self.eat("&"):
            if self.peek().k == "life": self.i += 1
            mut = self.eat("mut")
            return ("ref", mut, self.type())
        if self.eat("*"):
            mut = not self.eat("const")
            if mut: self.want("mut")
            return ("ptr", self.type(), mut)
        if self.eat("["):
            e = self.type()
            sized = self.expr() if self.eat(";") else None
            self.want("]")
            return ("arr", e, sized)
        if self.eat("("):
            l = []
            while not self.at(")"):
                l.append(self.type()); self.eat(",")
            self.want(")")
            return ("tup", l) if l else ("unit",)
        if self.at("_"): self.i += 1; return None
        if self.eat("<"):
            q = self.type(); tr = self.type() if self.eat("as") else None
            self.want(">"); self.want("::")
            return ("proj", q, self.ident())
        segs, args = [self.path_seg_ty()], []
        while self.eat("::"): segs.append(self.path_seg_ty())
        return ("path", [s[0] for s in segs], segs[-1][1])
    def path_seg_ty(self):
        if self.at("::"): self.i += 1
        n, args = self.ident(), []
        if self.at("<"):
            self.i += 1
            while True:
                self.split(">", ">")
                if self.eat(">"): break
                if self.peek().k == "life" or self.peek().k == "int": self.i += 1
                elif self.peek(1).v == "=" : self.i += 2; self.type()
                else: args.append(self.type())
                self.eat(",")
        return (n, args)

    # expressions
    def expr(self, ns=False):
        ln = self.peek().line
        if self.at("return"):
            self.i += 1
            v = None if (self.at(";") or self.at("}") or self.peek().k == "eof") else self.expr(ns)
            return Node("Return", ln, e=v)
        if self.at("break"): self.i += 1; return Node("Break", ln)
        if self.at("|") and self.w.text:
            self.i += 1; p = self.pattern(); self.want("|")
            return Node("Closure", ln, p=p, e=self.expr())
        if self.at("|") or self.at("||") or self.at("move"): raise Err(f"closure at {ln}")
        e = self.binary(0, ns)
        if self.at("..") or self.at("..="):
            e = self.range_rest(e, ns)
        x = self.peek()
        if x.k == "p" and x.v in ASSIGN:
            self.i += 1
            r = self.expr(ns)
            return Node("Assign", ln, op=x.v[:-1], l=e, r=r)
        return e
    def range_rest(self, lo, ns):
        ln = self.peek().line
        incl = self.peek().v == "..="; self.i += 1
        x = self.peek()
        hi = None if x.k == "eof" or (x.k == "p" and x.v in ("]", ")", "}", ",", ";")) or (ns and self.at("{")) else self.binary(0, ns)
        return Node("Range", ln, lo=lo, hi=hi, incl=incl)
    def binary(self, lvl, ns):
        if lvl == len(BIN): return self.cast(ns)
        if lvl == 0 and (self.at("..")): return self.range_rest(None, ns)
        e = self.binary(lvl + 1, ns)
        while self.peek().k == "p" and self.peek().v in BIN[lvl]:
            op, ln = self.peek().v, self.peek().line; self.i += 1
            e = Node("Bin", ln, op=op, l=e, r=self.binary(lvl + 1, ns))
        return e
    def cast(self, ns):
        e = self.unary(ns)
        while self.at("as"):
            ln = self.peek().line; self.i += 1
            e = Node("Cast", ln, e=e, t=self.type())
        return e
    def unary(self, ns):
        ln = self.peek().line
        if self.eat("!"): return Node("Not", ln, e=self.unary(ns))
        if self.eat("*"): return Node("Deref", ln, e=self.unary(ns))
        self.split("&", "&")
        if self.eat("&"):
            mut = self.eat("mut")
            return Node("Ref", ln, mut=mut, e=self.unary(ns))
        return self.postfix(ns)
    def args(self, close=")"):
        l = []
        while not self.at(close):
            l.append(self.expr())
            if not self.eat(","): break
        self.want(close)
        return l
    def postfix(self, ns):
        e = self.primary(ns)
        while True:
            ln = self.peek().line
            if self.eat("."):
                x = self.peek()
                if x.k == "int": self.i += 1; e = Node("Field", ln, e=e, f=str(x.v[0])); continue
                n = self.ident()
                if self.at("::"):
                    self.i += 1; self.i = self.skip_angle()
                if self.eat("("): e = Node("MCall", ln, e=e, m=n, args=self.args())
                else: e = Node("Field", ln, e=e, f=n)
            elif self.at("["):
                self.i += 1
                ix = self.expr(); self.want("]")
                e = Node("Index", ln, e=e, i=ix)
            elif self.at("("):
                self.i += 1
                e = Node("Call", ln, f=e, args=self.args())
            elif self.eat("?"): e = Node("Try", ln, e=e)
            else: return e
    def skip_angle(self):
        d, j = 0, self.i
        while True:
            v = self.t[j].v
            if v == "<": d += 1
            elif v == ">": d -= 1
            elif v == ">>": d -= 2
            j += 1
            if d <= 0: return j
    def block(self):
        ln = self.peek().line
        self.want("{")
        b = self.block_body(lambda: self.at("}"))
        self.want("}")
        b.line = ln
        return b
    def block_body(self, end):
        stmts, tail = [], None
        while not end():
            if self.eat(";"): continue
            keep = True
            while self.at("#"):
                self.i += 1
                j = match_delim(self.t, self.i)
                keep = keep and attr_ok(self.t[self.i + 1:j - 1], self.w)
                self.i = j
            ln = self.peek().line
            if self.at("let"):
                self.i += 1
                p = self.pattern()
                t = self.type() if self.eat(":") else None
                e = self.expr() if self.eat("=") else None
                self.want(";")
                s = Node("Let", ln, p=p, t=t, e=e)
                if keep: stmts.append(s)
                continue
            if self.at("use"):
                while not self.eat(";"): self.i += 1
                continue
            # macro statement: its own statements
            x = self.peek()
            if x.k == "id" and self.at("!", 1) and x.v in self.w.macros:
                self.i += 2
                j = match_delim(self.t, self.i)
                brace = self.t[self.i].v == "{"
                toks = self.w.expand(x.v, self.t[self.i + 1:j - 1], x.line)
                self.i = j
                semi = self.eat(";")
                if semi or brace or not end():
                    sub = Parser(toks, self.w)
                    b = sub.block_body(lambda: sub.peek().k == "eof")
                    ss = b.stmts + ([Node("Expr", ln, e=b.tail)] if b.tail is not None else [])
                    stmts.append(Node("Mac", ln, name=x.v, stmts=ss))
                    continue
                sub = Parser(toks, self.w)
                b = sub.block_body(lambda: sub.peek().k == "eof")
                tail = b.tail if not b.stmts else b
                continue
            e = self.stmt_expr()
            if not keep: self.eat(";"); continue
            if self.eat(";"): stmts.append(Node("Expr", ln, e=e))
            elif end(): tail = e
            elif e.kind in ("If", "While", "For", "Match", "Block"): stmts.append(Node("Expr", ln, e=e))
            else: raise Err(f"; expected at {self.peek()}")
        return Node("Block", 0, stmts=stmts, tail=tail)
    def stmt_expr(self):
        # a block-like expression at the start of a statement ends it
        x = self.peek()
        if x.k == "id" and x.v in ("if", "while", "for", "match", "unsafe") or self.at("{"):
            e = self.primary(False)
            if not (self.at(".") or self.at("?") or (self.peek().k == "p" and self.peek().v in ("<<", ">>", "==", "+") )): return e
            raise Err(f"expression continues after block at {x.line}")
        return self.expr()
    def pattern(self):
        self.split("&", "&")
        if self.eat("&"): return self.pattern()
        if self.eat("("):
            l = []
            while not self.at(")"):
                l.append(self.pattern()); self.eat(",")
            self.want(")")
            return ("tup", l)
        self.eat("mut")
        if self.at("_"): self.i += 1; return ("wild",)
        return ("var", self.ident())
    def primary(self, ns):
        x = self.peek(); ln = x.line
        if x.k == "ast": self.i += 1; return Node("Paren", ln, e=copy.deepcopy(x.v))
        if x.k == "int": self.i += 1; return Node("Lit", ln, v=x.v[0], suf=x.v[1])
        if x.k == "str": self.i += 1; return Node("Str", ln, v=x.v)
        if self.eat("("):
            l, comma = [], False
            while not self.at(")"):
                l.append(self.expr())
                if self.eat(","): comma = True
            self.want(")")
            if len(l) == 1 and not comma: return Node("Paren", ln, e=l[0])
            return Node("Tuple", ln, es=l)
        if self.eat("["):
            if self.at("]"): self.i += 1; return Node("Array", ln, es=[])
            e = self.expr()
            if self.eat(";"):
                n = self.expr(); self.want("]")
                return Node("Repeat", ln, e=e, n=n)
            l = [e]
            while self.eat(","):
                if self.at("]"): break
                l.append(self.expr())
            self.want("]")
            return Node("Array", ln, es=l)
        if self.at("{"): return self.block()
        if self.eat("unsafe"): return self.block()
        if self.at("if") and self.at("let", 1) and self.w.text:
            self.i += 2
            ctor = self.ident(); self.want("("); p = self.pattern(); self.want(")"); self.want("=")
            e = self.expr(True); a = self.block(); self.want("else")
            return Node("IfLet", ln, ctor=ctor, p=p, e=e, a=a, b=self.block())
        if self.eat("if"):
            c = self.expr(True); a = self.block(); b = None
            if self.eat("else"):
                b = self.primary(False) if self.at("if") else self.block()
            if b is not None and b.kind == "If": b = Node("Block", b.line, stmts=[], tail=b)
            return Node("If", ln, c=c, a=a, b=b)
        if self.eat("while"): c = self.expr(True); return Node("While", ln, c=c, body=self.block())
        if self.eat("for"):
            p = self.pattern(); self.want("in"); it = self.expr(True)
            return Node("For", ln, p=p, it=it, body=self.block())
        if self.eat("match"):
            e = self.expr(True); self.want("{")
            arms = []
            while not self.eat("}"):
                if self.at("_"): self.i += 1; p = None
                else:
                    lo = self.peek().v[0]; self.i += 1
                    self.want("..="); hi = self.peek().v[0]; self.i += 1
                    p = (lo, hi)
                self.want("=>"); arms.append((p, self.expr())); self.eat(",")
            return Node("Match", ln, e=e, arms=arms)
        if self.at("true") or self.at("false"): self.i += 1; return Node("Bool", ln, v=x.v == "true")
        # path
        segs, q = [], None
        if self.at("<"):
            self.i += 1
            q = self.type()
            if self.eat("as"): self.type()
            self.want(">"); self.want("::")
        elif self.at("::"): self.i += 1
        targ = None
        segs.append(self.ident())
        while self.at("::"):
            self.i += 1
            if self.at("<"):
                self.i += 1; targ = self.type(); self.want(">")
                continue
            segs.append(self.ident())
        if self.at("!") and self.peek(1).v in OPEN:
            self.i += 1
            j = match_delim(self.t, self.i)
            inner = self.t[self.i + 1:j - 1]; self.i = j
            if segs[-1] in self.w.macros:
                toks = self.w.expand(segs[-1], inner, ln)
                sub = Parser(toks, self.w)
                b = sub.block_body(lambda: sub.peek().k == "eof")
                return b.tail if not b.stmts and b.tail is not None else b
            sub = Parser(inner, self.w)
            return Node("Macro", ln, name=segs[-1], args=sub.args_eof())
        if not ns and self.at("{") and (segs[-1][0].isupper()):
            self.i += 1
            fields, base = [], None
            while not self.at("}"):
                if self.eat(".."): base = self.expr(); continue
                n = self.ident()
                fields.append((n, self.expr() if self.eat(":") else Node("Path", ln, segs=[n], q=None, targ=None)))
                self.eat(",")
            self.want("}")
            return Node("Struct", ln, path=segs, fields=fields, base=base)
        return Node("Path", ln, segs=segs, q=q, targ=targ)
    def args_eof(self):
        l = []
        while self.peek().k != "eof":
            l.append(self.expr())
            if not self.eat(","): break
        return l

# ---------------------------------------------------------------- cfg
def attr_ok(toks, w):
    """is the item with this attribute compiled in?"""
    if not toks or toks[0].v != "cfg": return True
    p = Parser(toks[2:-1], w)
    def ev():
        n = p.ident()
        if n in ("all", "any", "not"):
            p.want("("); l = []
            while not p.at(")"): l.append(ev()); p.eat(",")
            p.want(")")
            return all(l) if n == "all" else any(l) if n == "any" else not l[0]
        if p.eat("="):
            v = p.peek().v.strip('"'); p.i += 1
            return (n, v) in w.cfg
        return n in w.cfg
    return ev()

# ---------------------------------------------------------------- source files
class Fn:
    pass
class Module:
    """a source file: structs, consts, functions (by impl type), macros"""
    def __init__(self, world, name, toks):
        self.w, self.name = world, name
        self.structs, self.fns, self.consts, self.types, self.order = {}, {}, {}, {}, []
        self.attrs, self.impls = {}, set()
        self.items(toks, None, None, name)
    def items(self, t, impl, trait, modname):
        i = 0
        while i < len(t):
            keep, attrs = True, []
            while t[i].v == "#" and t[i].k == "p":
                j = i + 1
                if t[j].v == "!": j += 1
                k = match_delim(t, j)
                keep = keep and attr_ok(t[j + 1:k - 1], self.w)
                attrs.append(t[j + 1:k - 1])
                i = k
                if i >= len(t): return
            start = i
            while t[i].v in ("pub", "const", "unsafe", "default") and t[i].k == "id" and not (t[i].v == "const" and t[i + 1].v not in ("fn", "unsafe")):
                i += 1
                if t[i].v == "(" and t[i - 1].v == "pub": i = match_delim(t, i)
            v = t[i].v if t[i].k == "id" else None
            if v == "fn":
                name = t[i + 1].v
                j = i
                d = 0
                while not (t[j].v in ("{", ";") and t[j].k == "p" and d == 0):
                    if t[j].v in ("(", "["): d += 1
                    elif t[j].v in (")", "]"): d -= 1
                    j += 1
                e = match_delim(t, j) if t[j].v == "{" else j + 1
                if keep and t[j].v == "{": self.add_fn(t[i:e], impl, trait, name, modname)
                i = e
            elif v == "impl":
                j = i + 1
                gens = []
                if t[j].v == "<":
                    k = j; d = 0
                    while True:
                        if t[k].v == "<": d += 1
                        if t[k].v in (">", ">>"): d -= len(t[k].v)
                        if t[k].k == "id" and t[k - 1].v in ("<", ","): gens.append(t[k].v)
                        k += 1
                        if d == 0: break
                    j = k
                p = Parser(t, self.w); p.i = j
                a = p.type(); tr = None
                if p.eat("for"): tr, a = a, p.type()
                while not p.at("{"): p.i += 1
                t = p.t                              # with any >> split
                e = match_delim(t, p.i)
                if keep and a[0] == "path":
                    tn = tr[1][-1] if tr else None
                    if tn == "AsRef" and tr[2][0][2]: tn = "AsRefArray"
                    if tn == "Index" and tr[2][0][0] == "path": tn += tr[2][0][1][-1]
                    own = a[1][-1]
                    self.impls.add((own, tn))
                    if self.name == "impls": own, tn = ".".join(a[1]), ".".join(tr[1])
                    self.items(t[p.i + 1:e - 1], own, tn, modname)
                i = e
            elif v == "mod" and t[i + 2].v == "{":
                e = match_delim(t, i + 2)
                if keep: self.items(t[i + 3:e - 1], None, None, t[i + 1].v)
                i = e
            elif v == "trait":
                j = i
                while t[j].v != "{": j += 1
                e = match_delim(t, j)
                if keep: self.items(t[j + 1:e - 1], "trait " + t[i + 1].v, None, modname)
                i = e
            elif v == "struct":
                name = t[i + 1].v; j = i + 2
                if t[j].v == "<":
                    p = Parser(t, self.w); p.i = j; j = p.skip_angle()
                fields = []
                if t[j].v == "{":
                    e = match_delim(t, j); p = Parser(t[j + 1:e - 1], self.w)
                    while p.peek().k != "eof":
                        while p.at("#"): p.i += 1; p.i = match_delim(p.t, p.i)
                        p.eat("pub")
                        n = p.ident(); p.want(":"); fields.append((n, p.type())); p.eat(",")
                elif t[j].v == "(":
                    e = match_delim(t, j); p = Parser(t[j + 1:e - 1], self.w); n = 0
                    while p.peek().k != "eof":
                        p.eat("pub"); fields.append((str(n), p.type())); p.eat(","); n += 1
                    e += 1
                else: e = j + 1
                if keep:
                    self.structs[name] = fields
                    self.attrs[name] = (attrs, getattr(self, "inmacro", None) or self.name, t[start].line)
                i = e
            elif v == "const":
                p = Parser(t, self.w); p.i = i + 1
                n = p.ident(); p.want(":"); ty = p.type()
                if p.eat("="):
                    ex = p.expr()
                    if keep: self.consts[(impl, n)] = (ty, ex)
                while not p.eat(";"): p.i += 1
                i = p.i
            elif v == "type":
                p = Parser(t, self.w); p.i = i + 1
                n = p.ident()
                if p.eat("="):
                    ty = p.type()
                    if keep: self.types[(impl, n)] = ty
                while not p.eat(";"): p.i += 1
                i = p.i
            elif v == "macro_rules":
                name = t[i + 2].v
                e = match_delim(t, i + 3)
                if keep: self.w.macros[name], self.w.macro_src[name] = self.w.parse_macro(t[i + 4:e - 1]), self.name
                i = e
                if i < len(t) and t[i].v == ";": i += 1
            else:
                # macro invocation item, or something to skip
                j = i
                while j < len(t) and t[j].v not in (";", "{") and not (t[j].v == "!" and t[j + 1].v in OPEN): j += 1
                if j < len(t) and t[j].v == "!":
                    e = match_delim(t, j + 1)
                    name = t[j - 1].v
                    if keep and name in self.w.macros and name in self.w.item_macros:
                        was = getattr(self, "inmacro", None)
                        self.inmacro = self.w.macro_src[name]
                        self.items(self.w.expand(name, t[j + 2:e - 1], t[j].line), impl, trait, modname)
                        self.inmacro = was
                    elif keep and name == "impl_write": self.impl_write(t[j + 2:e - 1])
                    i = e
                    if i < len(t) and t[i].v == ";": i += 1
                elif j < len(t) and t[j].v == "{": i = match_delim(t, j)
                else: i = j + 1
    def impl_write(self, t):
        """impl_write!(ty, |us: &mut ty, buf| {..}, |_us| {..}): write(us, buf) and flush(_us), as bitcoin-io defines it"""
        parts, d, cur = [], 0, []
        bars = 0
        for x in t:
            if x.v == "|" and x.k == "p": bars += 1
            if x.v in OPEN and x.k == "p": d += 1
            if x.v in CLOSE and x.k == "p": d -= 1
            if x.v == "," and x.k == "p" and d == 0 and bars % 2 == 0: parts.append(cur); cur = []
            else: cur.append(x)
        parts.append(cur)
        p = Parser(parts[0], self.w); own = ".".join(p.type()[1])
        for name, c, ps, ret in (("write", parts[1], ["us", "buf"], "usize"), ("flush", parts[2], ["_us"], "()")):
            bar = [i for i, x in enumerate(c) if x.v == "|"]
            got = [x.v for i, x in enumerate(c[:bar[1]]) if x.k == "id" and c[i - 1].v in ("|", ",")]
            if got != ps: raise Err(f"impl_write closure {got}")
            ln = c[0].line
            head = lex(f"fn {name}({ps[0]}: &mut @" .replace("@", "")) + parts[0] + lex((", buf: &[u8]" if name == "write" else "") + f") -> Result<{ret}, bitcoin_io::Error>")
            for x in head: x.line = ln
            self.add_fn(head + c[bar[1] + 1:], own, "impl_write", name, self.name)
    def add_fn(self, t, impl, trait, name, modname):
        f = Fn()
        f.toks, f.impl, f.trait, f.name, f.mod, f.modname = t, impl, trait, name, self, modname
        f.line, f.end = t[0].line, t[-1].line
        f.params, f.macro = None, getattr(self, "inmacro", None)
        key = (impl, trait, name, modname if impl is None and modname != self.name else None)
        self.fns[key] = f
        self.order.append(f)

class World:
    text = False                    # rs2v_text.py: formatting, serde, JSON schema
    item_macros = {"engine_input_impl", "hash_type", "hash_trait_impls", "as_ref_impl"}
    def __init__(self, small):
        self.small, self.macro_src = small, {}
        self.cfg = {("feature", "std"), ("feature", "alloc"), ("target_arch", "x86_64")}
        if small: self.cfg.add(("feature", "small-hash"))
        if FUZZ: self.cfg.add("hashes_fuzz")
        self.macros, self.mods = {}, {}
    def load(self, name):
        if name in self.mods: return self.mods[name]
        if name not in ("internal_macros",):
            for k in ("round", "process_block", "compress", "load_int_le"): self.macros.pop(k, None)
        s = open(os.path.join(SRC, name + ".rs")).read()
        m = Module(self, name, lex(s))
        m.macros = dict(self.macros)
        self.mods[name] = m
        return m
    def parse_macro(self, t):
        arms, i = [], 0
        while i < len(t):
            e = match_delim(t, i); pat = t[i + 1:e - 1]; i = e
            assert t[i].v == "=>"; i += 1
            e = match_delim(t, i); body = t[i + 1:e - 1]; i = e
            if i < len(t) and t[i].v == ";": i += 1
            arms.append((pat, body))
        return arms
    def expand(self, name, toks, line):
        for pat, body in self.macros[name]:
            try: b = self.match(pat, toks)
            except Err: continue
            if b is not None: return self.subst(self.hygiene(body, b), b, line)
        raise Err(f"no arm of {name}! matches at line {line}")
    def match(self, pat, toks):
        b = {}
        i = self.match_seq(pat, toks, 0, b)
        return b if i is not None and i == len(toks) else None
    def match_seq(self, pat, toks, i, b):
        j = 0
        while j < len(pat):
            x = pat[j]
            if x.v == "$" and pat[j + 1].v == "(":
                e = match_delim(pat, j + 1)
                sub = pat[j + 2:e - 1]
                sep = None
                if pat[e].v not in ("*", "+"): sep = pat[e].v; e += 1
                reps = []
                while i < len(toks):
                    bb = {}
                    try: k = self.match_seq(sub, toks, i, bb)
                    except Err: k = None
                    if k is None: break
                    reps.append(bb); i = k
                    if sep is not None:
                        if i < len(toks) and toks[i].v == sep: i += 1
                        else: break
                for n in self.names(sub): b[n] = [r[n] for r in reps]
                j = e + 1
            elif x.v == "$":
                n, frag = pat[j + 1].v, pat[j + 3].v
                if i >= len(toks): return None
                if frag == "expr":
                    p = Parser(toks, self); p.i = i
                    a = p.expr()
                    if p.t is not toks: raise Err("split token")
                    b[n] = [Tok("ast", a, toks[i].line)]; i = p.i
                elif frag in ("ident", "literal"):
                    if frag == "ident" and toks[i].k != "id": return None
                    b[n] = [toks[i]]; i += 1
                else: raise Err("fragment " + frag)
                b[n] = tuple(b[n])
                j += 4
            else:
                if i >= len(toks) or toks[i].v != x.v: return None
                i += 1; j += 1
        return i
    def hygiene(self, body, b):
        """a variable the macro declares is not the caller's variable of the same name"""
        lets = {body[j + (2 if body[j + 1].v == "mut" else 1)].v for j in range(len(body) - 2) if body[j].v == "let" and body[j].k == "id"}
        seen = set()
        def walk(x):
            if isinstance(x, Node):
                if x.kind == "Path" and x.q is None and len(x.segs) == 1: seen.add(x.segs[0])
                for v in x.__dict__.values(): walk(v)
            elif isinstance(x, Tok):
                if x.k == "ast": walk(x.v)
                elif x.k == "id": seen.add(x.v)
            elif isinstance(x, (list, tuple)):
                for v in x: walk(v)
        walk(list(b.values()))
        bad = lets & seen
        if not bad: return body
        return [Tok("id", t.v + "_m", t.line) if t.k == "id" and t.v in bad and not (j and body[j - 1].v == "$") else t for j, t in enumerate(body)]
    def names(self, pat):
        return [pat[k + 1].v for k in range(len(pat) - 1) if pat[k].v == "$" and pat[k + 1].k == "id"]
    def subst(self, body, b, line):
        out, j = [], 0
        while j < len(body):
            x = body[j]
            if x.v == "$" and x.k == "p":
                y = body[j + 1]
                if y.v == "(":
                    e = match_delim(body, j + 1)
                    sub = body[j + 2:e - 1]
                    sep = None
                    if body[e].v != "*": sep = body[e]; e += 1
                    if body[e].v != "*": raise Err("macro repetition")
                    ns = [n for n in self.names(sub) if isinstance(b.get(n), list)]
                    for k in range(len(b[ns[0]])):
                        bb = dict(b)
                        if k and sep: out.append(Tok(sep.k, sep.v, sep.line))
                        for n in ns: bb[n] = b[n][k]
                        out += self.subst(sub, bb, line)
                    j = e + 1
                elif y.v == "crate": out.append(Tok("id", "crate", line)); j += 2
                else:
                    out += [Tok(z.k, z.v, line) for z in b[y.v]]; j += 2
            else:
                out.append(Tok(x.k, x.v, x.line)); j += 1
        return out

# ---------------------------------------------------------------- types
class TV:
    """type variable; [num]: of an integer literal"""
    def __init__(self, num=False): self.b, self.num = None, num
RANGES = {"Range": "(N * N)", "RangeFrom": "N", "RangeTo": "N", "RangeFull": "unit"}
INTS = {"u8": 8, "u16": 16, "u32": 32, "u64": 64, "i64": 64, "i32": 32, "usize": None}
def prune(t):
    while isinstance(t, TV) and t.b is not None: t = t.b
    return t
def is_int(t): return isinstance(t, str) and t in INTS
def strip(t):
    """forget newtypes"""
    t = prune(t)
    while isinstance(t, tuple) and t[0] == "nt": t = prune(t[3])
    return t
def unify(a, b, where=""):
    a, b = prune(a), prune(b)
    if a is b: return
    if isinstance(a, TV):
        if a.num and not (isinstance(b, TV) or is_int(b)): raise Err(f"integer literal used as {b} {where}")
        if isinstance(b, TV) and a.num: b.num = True
        a.b = b; return
    if isinstance(b, TV): return unify(b, a, where)
    if isinstance(a, str) or isinstance(b, str):
        if a == b: return
        raise Err(f"type mismatch {show(a)} / {show(b)} {where}")
    if a[0] != b[0]: raise Err(f"type mismatch {show(a)} / {show(b)} {where}")
    if a[0] == "list": return unify(a[1], b[1], where)
    if a[0] == "tup":
        if len(a[1]) != len(b[1]): raise Err("tuple length " + where)
        for x, y in zip(a[1], b[1]): unify(x, y, where)
        return
    if a[0] in ("result", "opt"):
        for x, y in zip(a[1:], b[1:]): unify(x, y, where)
        return
    if a[:3] != b[:3]: raise Err(f"type mismatch {show(a)} / {show(b)} {where}")
def show(t):
    t = prune(t)
    if isinstance(t, TV): return "{int}" if t.num else "_"
    if isinstance(t, tuple) and t[0] in ("list",): return f"[{show(t[1])}]"
    if isinstance(t, tuple) and t[0] == "tup": return "(" + ", ".join(map(show, t[1])) + ")"
    return str(t)

# Gallina records the Rust structs are represented by: constructor and
# (Rust field, projection) in the order of the constructor's arguments
RECORDS = {
    ("sha1", "Engine"): ("engine", "mk_engine", [("buffer", "e_buffer"), ("h", "e_h"), ("length", "e_length")]),
    ("siphash24", "State"): ("sip_state", "mk_sip", [("v0", "v0"), ("v1", "v1"), ("v2", "v2"), ("v3", "v3")]),
    ("siphash24", "Engine"): ("sip_engine", "mk_sip_engine", [("k0", "sip_k0"), ("k1", "sip_k1"), ("length", "sip_length"),
                              ("state", "sip_st"), ("tail", "sip_tail"), ("ntail", "sip_ntail")]),
    ("hmac", "Engine"): ("hmac_state v_E", "mk_hmac", [("iengine", "iengine"), ("oengine", "oengine")]),
    ("lib", "FromSliceError"): ("from_slice_error", "Build_from_slice_error", [("expected", "expected"), ("got", "got")]),
    ("hmac", "Midstate"): ("(he_mid v_E * he_mid v_E)", "pair", [("inner", "fst"), ("outer", "snd")]),
}
for _m in ("sha256", "sha512", "ripemd160"): RECORDS[(_m, "Engine")] = RECORDS[("sha1", "Engine")]

# trait methods of a generic engine E: Gallina field, returns res?
PARAM = {"default": ("he_default", True), "input": ("he_input", True), "n_bytes_hashed": ("he_n_bytes_hashed", False),
         "finalize": ("he_finalize", True), "midstate": ("he_midstate", True), "from_midstate": ("he_from_midstate", True)}

# fuel of each while loop, by function and position; checked by the proofs
FUEL = {"input": ["length v_inp", ], "siphash24.input": ["length v_data"], "copy_w": ["16%nat"], "hash_tag": ["64%nat"],
        "const_hash": ["N.to_nat v_num_chunks", "length v_bytes", "8%nat"]}

MM = {"_mm_shuffle_epi32": ("shuffle_epi32", 1), "_mm_alignr_epi8": ("alignr_epi8", 2), "_mm_blend_epi16": ("blend_epi16", 2),
      "_mm_add_epi32": ("add_epi32", 2), "_mm_sha256rnds2_epu32": ("sha256rnds2", 3), "_mm_sha256msg1_epu32": ("sha256msg1", 2),
      "_mm_sha256msg2_epu32": ("sha256msg2", 2), "_mm_shuffle_epi8": ("shuffle_epi8", 2)}

def gtype(t):
    t = prune(t)
    if isinstance(t, TV): return "N" if t.num else "_"
    if t == "u8": return "byte"
    if is_int(t): return "N"
    if t in ("bool", "unit"): return t
    if t == "m128": return "m128"
    if t == "ordering": return "comparison"
    if t == "ioerr": return "io_error"
    if t == "hexerr": return "hex_error"
    if t == "sidx": return "slice_index"
    if t[0] == "rng": return RANGES[t[1]]
    if t[0] == "result": return f"(result {gtype(t[1])} {gtype(t[2])})"
    if t[0] == "opt": return f"(option {gtype(t[1])})"
    if t[0] == "list": return f"(list {gtype(t[1])})"
    if t[0] == "tup": return "(" + " * ".join(gtype(x) for x in t[1]) + ")"
    if t[0] == "nt": return gtype(t[3])
    if t[0] == "struct":
        g = RECORDS[(t[1], t[2])][0]
        return f"({g})" if " " in g and g[0] != "(" else g
    if t[0] == "param": return f"(he_state v_{t[1]})" if t[1] != "T" else "_"
    if t[0] == "pmid": return f"(he_mid v_{t[1]})"
    raise Err(f"no Gallina type for {t}")

# ---------------------------------------------------------------- signatures
class Sig:
    pass

class Tr:
    """translates the functions of one world (one value of small-hash)"""
    def __init__(self, world):
        self.w, self.sigs, self.done, self.order = world, {}, {}, []
    # --- resolution of names and types
    def mod(self, n): return self.w.load(n)
    def rtype(self, t, f):
        """syntactic type -> type, in function/module context f"""
        if t is None: return TV()
        k = t[0]
        if k == "ref": return self.rtype(t[2], f)
        if k == "ptr": return self.rtype(t[1], f)
        if k == "arr": return ("list", self.rtype(t[1], f))
        if k == "tup": return ("tup", [self.rtype(x, f) for x in t[1]])
        if k == "unit": return "unit"
        if k == "proj":
            if t[1][0] == "path": return self.rtype(("path", t[1][1] + [t[2]], []), f)
            raise Err(f"type {t}")
        segs = [s for s in t[1] if s not in ("crate", "super", "self")]
        n = segs[-1]
        if n == "Result":
            a = [self.rtype(x, f) for x in t[2]]
            return ("result", a[0], a[1] if len(a) == 2 else "ioerr" if "io" in segs else None)
        if n == "Option": return ("opt", self.rtype(t[2][0], f))
        if n == "Vec": return ("list", self.rtype(t[2][0], f))
        if n == "Ordering": return "ordering"
        if segs in (["Self", "Err"], ["Self", "Error"]) and f.trait in ("FromStr", "FromHex"): return "hexerr"
        if segs == ["Self", "Output"] and f.trait == "IndexI": return ("list", "u8")
        if n == "str": return ("list", "u8")
        if n in RANGES: return ("rng", n)
        if segs == ["bitcoin_io", "Error"]: return "ioerr"
        if len(segs) == 1:
            if n in INTS: return n
            if n == "bool": return "bool"
            if n == "__m128i": return "m128"
            if n == "PhantomData": return "phantom"
            if n == "Self": return self.selftype(f)
            if f.generics.get(n) == "sidx": return "sidx"
            if n in f.generics: return ("param", n) if f.generics[n] != "bytes" else ("list", "u8") if f.generics[n] == "bytes" else None
            return self.named(f.mod, n, f)
        if segs[0] == "Self":
            if isinstance(f.impl, str) and f.impl.startswith("trait "): return self.assoc_param("Self", n)
            for (impl, nm), ty in f.mod.types.items():
                if impl == f.impl and nm == n: return self.rtype(ty, f)
            raise Err(f"no associated type {n} of {f.impl}")
        if segs[0] in f.generics: return self.assoc_param(segs[0], n)
        return self.named(self.mod(segs[0]), n, f)
    def assoc_param(self, p, n):
        if n == "Digest": return ("list", "u8")
        if n == "Midstate": return ("pmid", p)
        raise Err(f"associated type {n}")
    def selftype(self, f):
        if f.impl is None: raise Err("Self outside impl")
        if f.impl.startswith("trait "): return ("param", "Self")
        if "." in f.impl: return self.named(self.mod(f.impl.split(".")[0]), f.impl.split(".")[1], f)
        return self.named(f.mod, f.impl, f)
    def named(self, m, n, f):
        if n not in m.structs and n == "FromSliceError": m = self.mod("lib")
        if n not in m.structs: raise Err(f"unknown type {n} in {m.name}")
        fs = m.structs[n]
        real = [x for x in fs if self.rtype(x[1], self.ctx(m)) != "phantom"]
        if fs and fs[0][0] == "0" and len(real) == 1: return ("nt", m.name, n, self.rtype(real[0][1], self.ctx(m)))
        return ("struct", m.name, n)
    def ctx(self, m):
        f = Fn(); f.mod, f.impl, f.generics, f.modname = m, None, {"E": "HashEngine", "T": "Tag"}, m.name
        return f
    def field_type(self, t, n):
        t = prune(t)
        for a, ty in self.mod(t[1]).structs[t[2]]:
            if a == n: return self.rtype(ty, self.ctx(self.mod(t[1])))
        raise Err(f"no field {n} of {t}")
    def find(self, m, impl, name, modname=None):
        """inherent before trait, as in Rust"""
        for tr in (None, "HashEngine", "Default", "Tag"):
            f = m.fns.get((impl, tr, name, modname))
            if f: return f
        return None
    def sig(self, f):
        if f in self.sigs: return self.sigs[f]
        f.generics = {}
        p = Parser(f.toks, self.w); p.i = 2
        if p.at("<"):
            j = p.skip_angle()
            names = [p.t[k].v for k in range(p.i + 1, j) if p.t[k].k == "id" and p.t[k - 1].v in ("<", ",")]
            p.i = j
            for n in names: f.generics[n] = "chunks" if n == "I" else "bytes"
        if f.mod.name == "hmac" and f.impl == "Hash":
            if "E" in f.generics: f.generics["E"] = "HashEngine"
            f.generics["N"] = "const"
        if f.trait == "IndexI": f.generics["I"] = "sidx"
        if f.trait and f.trait.startswith("Index") and f.trait != "IndexI": s_suffix = "_" + f.trait[5:]
        else: s_suffix = ""
        if f.impl == "hmac.Engine": f.generics["E"] = "HashEngine"
        if f.impl == "sha256t.Engine": f.generics["T"] = "Tag"
        if f.mod.name == "hmac" and f.impl == "Engine": f.generics["E"] = "HashEngine"
        if f.mod.name == "sha256t": f.generics["T"] = "Tag"
        s = Sig(); s.params = []
        p.want("(")
        while not p.at(")"):
            if p.at("&") and (p.at("self", 1) or (p.at("mut", 1) and p.at("self", 2))):
                p.i += 1; mut = p.eat("mut"); p.i += 1
                s.params.append(("self", self.selftype(f), mut))
            elif p.at("self") or (p.at("mut") and p.at("self", 1)):
                p.eat("mut"); p.i += 1
                s.params.append(("self", self.selftype(f), False))
            else:
                pat = p.pattern(); p.want(":"); ty = p.type()
                rt = ("list", ("list", "u8")) if ty[0] == "path" and ty[1] == ["I"] and f.generics.get("I") != "sidx" else self.rtype(ty, f)
                s.params.append((pat[1], rt, ty[0] == "ref" and ty[1]))
            p.eat(",")
        p.want(")")
        s.ret = self.rtype(p.type(), f) if p.eat("->") else "unit"
        while not p.at("{"): p.i += 1
        saved = self.w.macros; self.w.macros = f.mod.macros
        s.body = p.block()
        self.w.macros = saved
        s.muts = [n for n, _, m in s.params if m]
        s.name = "g_" + "_".join([f.mod.name] + ([f.modname] if f.impl is None and f.modname != f.mod.name else [])
                                 + ([f.impl.replace("trait ", "").replace(".", "_")] if f.impl else []) + [f.name])
        s.name += s_suffix
        if f.trait == "AsRefArray": s.name += "_array"
        if f.trait == "std.io.Write": s.name += "_std"
        if f.mod.name == "sha256" and f.impl == "Engine" and f.name == "from_midstate" and f.trait: s.name += "_trait"
        s.eparam = [n for n, k in f.generics.items() if k in ("HashEngine", "Tag", "const")]
        if f.impl and f.impl.startswith("trait "): s.eparam = ["Self"]
        self.sigs[f] = s
        return s
    def translate(self, f):
        if f in self.done: return self.done[f]
        self.done[f] = None           # recursion is an error
        try:
            r = FnTr(self, f).run()
        except Err as e:
            raise Err(f"{f.mod.name}.rs:{f.line} fn {f.name}: {e}")
        self.done[f] = r
        self.order.append(f)
        return r
    def callee(self, f):
        if f in self.done and self.done[f] is None: raise Err(f"recursive function {f.name}")
        return self.translate(f)

class Out:
    """a translated function"""
    pass

class Var:
    def __init__(self, name, ty): self.name, self.ty, self.g = name, ty, None

def children(n):
    for k, v in n.__dict__.items():
        if k in ("ty", "var", "pvars", "target"): continue
        yield from nodes_in(v)
def nodes_in(v):
    if isinstance(v, Node): yield v
    elif isinstance(v, (list, tuple)):
        for x in v: yield from nodes_in(x)

def has_exit(n, in_loop=False):
    """can control leave n by return, or by break of an enclosing loop?"""
    if n is None: return False
    if n.kind in ("Return", "Try"): return True
    if n.kind == "Break": return not in_loop
    return any(has_exit(c, in_loop or n.kind in ("While", "For")) for c in children(n))

# Trace mode: the same translation, but every branch, every access to an array
# and every operation whose time may depend on its operands is recorded.  A
# function that has none of these is the one of the plain mode.
TRACE = False
FUZZ = False
RECORDED = {"index", "store", "slice_to", "slice_from", "slice_range", "copy_from_slice", "assert", "debug_assert", "load_native",
            "load_m128_words", "load_m128_bytes", "store_m128_words", "get_unchecked", "for_loop", "for_each", "for_enum",
            "zip_iter_mut", "zip_chunks_mut", "usize_mul", "checked_mul", "checked_shl", "checked_shr", "checked_div", "checked_rem"}
SILENT = {"usize_add", "usize_sub", "checked_add", "checked_sub", "from_be_bytes", "from_le_bytes", "Panic"}
def recorded(rhs):
    if not TRACE: return rhs
    h = rhs.split()[0]
    if h in RECORDED: return "t_" + rhs
    if h == "Ok": return "tret" + rhs[2:]
    if h in SILENT: return f"tlift ({rhs})"
    if h.startswith(("t_", "te_", "@NAME@", "v_")): return rhs
    raise Err(f"not recorded: {rhs}")

# computations: lines (kind, pattern, rhs), then a final
class Comp:
    def __init__(self): self.lines, self.final = [], None
    def pure(self):
        def p(x): return x.pure() if isinstance(x, Comp) else True
        if any(k == "bind" for k, _, _ in self.lines): return False
        if not all(p(r) for _, _, r in self.lines): return False
        f = self.final
        if f[0] == "val": return True
        if f[0] == "if": return not TRACE and f[2].pure() and f[3].pure()
        if f[0] == "try": return f[4].pure()
        return False

def atom(s):
    if re.fullmatch(r"[\w.%]+", s) or (s[0] in "([" and closes(s)): return s
    return f"({s})"
def closes(s):
    d = 0
    for i, c in enumerate(s):
        if c in "([": d += 1
        elif c in ")]":
            d -= 1
            if d == 0: return i == len(s) - 1
    return False

IDENT = re.compile(r"\b(?:[vt]_?\w*|cfg)\b")
def free(c):
    """names used in computation c before it binds them"""
    def of(x): return free(x) if isinstance(x, Comp) else set(IDENT.findall(x))
    live = set().union(*map(of, c.final[1:]))
    for _, pat, rhs in reversed(c.lines):
        live = live - set(IDENT.findall(pat)) | of(rhs)
    return live

def parts(c, params):
    """a long straight-line body in several definitions: 16 macro invocations or
    40 other lines each.  List of (parameters, computation), the last one first;
    the first part keeps the name of the function."""
    cut, comps, plain = [], 0, 0
    for i, (k, pat, rhs) in enumerate(c.lines):
        if comps == 16 or plain == 40: cut.append(i); comps = plain = 0
        if isinstance(rhs, Comp): comps += 1
        else: plain += 1
    out, rest = [], c
    for n, i in reversed(list(enumerate(cut))):
        tail = Comp(); tail.lines, tail.final = rest.lines[i:], rest.final
        bound = list(params)
        for _, pat, _ in c.lines[:i]: bound += [x for x in IDENT.findall(pat) if x not in bound]
        ps = [x for x in bound if x in free(tail)]
        out.append((n + 1, ps, tail))
        head = Comp(); head.lines, head.final = rest.lines[:i], ("m", " ".join([f"@NAME@_part{n + 1}"] + ps))
        rest = head
    return out, rest

def render(c, mon, ind):
    """text of computation c; [mon]: as a res"""
    sp = " " * ind
    out = []
    lines, final = c.lines, c.final
    if mon and final[0] == "val" and lines and lines[-1][0] == "bind" and lines[-1][1] == final[1]:
        lines, final = lines[:-1], ("rhs", lines[-1][2])     # let* x := e in Ok x
    for k, pat, rhs in lines:
        if isinstance(rhs, Comp):
            m = k == "bind"
            body = render(rhs, m, ind + 2)
            r = "(\n" + body + ")" if "\n" in body or True else body
        else: r = recorded(rhs) if k == "bind" else rhs
        if k == "bind": out.append(f"{sp}let{'!' if TRACE else '*'} {pat} := {r} in")
        else: out.append(f"{sp}let {chr(39) if pat.startswith('(') else ''}{pat} := {r} in")
    ok = "tret" if TRACE else "Ok"
    if final[0] == "val": out.append(f"{sp}{ok} {atom(final[1])}" if mon else sp + final[1])
    elif final[0] == "m": out.append(sp + recorded(final[1]))
    elif final[0] == "rhs":
        out.append(render(final[1], True, ind) if isinstance(final[1], Comp) else sp + recorded(final[1]))
    elif final[0] == "if" and TRACE:
        out.append(f"{sp}t_if {atom(final[1])} (\n{render(final[2], mon, ind + 2)}\n{sp}) (\n{render(final[3], mon, ind + 2)}\n{sp})")
    elif final[0] == "if":
        out.append(f"{sp}if {final[1]} then\n{render(final[2], mon, ind + 2)}\n{sp}else\n{render(final[3], mon, ind + 2)}")
    elif final[0] == "try":
        err = f"Ok {atom(final[3])}" if mon else final[3]
        out.append(f"{sp}match {final[1]} with\n{sp}| RErr err => {err}\n{sp}| ROk {final[2]} =>\n{render(final[4], mon, ind + 2)}\n{sp}end")
    elif final[0] == "fuel":
        out.append(f"{sp}match fuel with\n{sp}| O => {'tlift (Panic POutOfFuel)' if TRACE else 'Panic POutOfFuel'}\n{sp}| S fuel =>\n{render(final[1], True, ind + 2)}\n{sp}end")
    return "\n".join(out)

def fname(s, o): return "t_" + s.name[2:] if TRACE and o.mon else s.name

class FnTr:
    def __init__(self, tr, f):
        self.tr, self.f = tr, f
        self.scopes, self.used, self.ntemp, self.cur = [{}], {}, 0, None
        self.loops, self.nloop, self.log = [], 0, []
        self.brk, self.loopnames = None, {}

    # ------------------------------------------------ inference
    def declare(self, name, ty):
        v = Var(name, ty); self.scopes[-1][name] = v
        return v
    def lookup(self, n):
        for s in reversed(self.scopes):
            if n in s: return s[n]
        return None
    def bindpat(self, p, ty, vs):
        if p[0] == "var": vs.append(self.declare(p[1], ty))
        elif p[0] == "tup":
            ts = [TV() for _ in p[1]]
            unify(ty, ("tup", ts))
            for q, t in zip(p[1], ts): self.bindpat(q, t, vs)
        else: vs.append(None)
    def block(self, b):
        self.scopes.append({})
        for s in b.stmts: self.istmt(s)
        t = "unit" if b.tail is None else self.infer(b.tail)
        if b.tail is None and b.stmts and b.stmts[-1].kind == "Expr" and b.stmts[-1].e.kind in ("Return", "Break"): t = TV()
        self.scopes.pop()
        b.ty = t
        return t
    def istmt(self, s):
        if s.kind == "Let":
            t = self.tr.rtype(s.t, self.f)
            if s.e is not None: unify(t, self.infer(s.e), f"line {s.line}")
            s.pvars = []
            self.bindpat(s.p, t, s.pvars)
        elif s.kind == "Mac":
            self.scopes.append({})
            for x in s.stmts: self.istmt(x)
            self.scopes.pop()
        else: self.infer(s.e)
    def infer(self, e):
        t = self.infer1(e)
        e.ty = t
        return t
    def num(self): return TV(True)
    def resolve(self, p):
        """function named by a path"""
        f, tr = self.f, self.tr
        if p.q is not None:
            q = p.q[1][-1]
            if q in f.generics: return ("param", q, p.segs[-1])
            if q == "Self": return self.assoc_fn(tr.selftype(f), p.segs[-1])
            raise Err(f"path <{q}>::{p.segs}")
        segs = [s for s in p.segs if s not in ("crate", "super", "core", "self")]
        if len(segs) == 1:
            for mn in (f.modname if f.modname != f.mod.name else None, None):
                g = f.mod.fns.get((None, None, segs[0], mn))
                if g: return ("fn", g)
            raise Err(f"unknown function {segs[0]}")
        if len(segs) == 2:
            if segs[0] == "Self": return self.assoc_fn(tr.selftype(f), segs[1])
            if segs[0] == "Default": return ("default",)
            if segs[0] in f.generics: return ("param", segs[0], segs[1])
            if segs[0] in f.mod.structs: return self.assoc_fn(tr.named(f.mod, segs[0], f), segs[1])
            g = f.mod.fns.get((None, None, segs[1], segs[0]))
            if g: return ("fn", g)
        if len(segs) == 3: return self.assoc_fn(tr.named(tr.mod(segs[0]), segs[1], f), segs[2])
        raise Err(f"unknown function {'::'.join(p.segs)}")
    def assoc_fn(self, t, name):
        if t[0] == "param": return ("param", t[1], name)
        g = self.tr.find(self.tr.mod(t[1]), t[2], name)
        if g: return ("fn", g)
        if t[0] in ("nt", "struct"):
            h = self.tr.find(self.tr.mod("lib"), "trait HashEngine", name)
            if h: return ("provided", h, t)
        raise Err(f"no function {name} of {t[2]}")
    def constant(self, e):
        """value of a constant path: int, or ("he", E)"""
        f = self.f
        segs = [s for s in e.segs if s not in ("crate", "super", "self")]
        own = e.q[1][-1] if e.q is not None else segs[0] if len(segs) == 2 else None
        n = segs[-1]
        if own is None: key, m = (None, n), f.mod
        elif own in f.generics or (own == "Self" and f.impl.startswith("trait ")):
            if n == "BLOCK_SIZE": return ("he", own)
            raise Err(n)
        elif own == "Self": key, m = (f.impl, n), f.mod
        elif own in f.mod.structs: key, m = (own, n), f.mod
        else: key, m = (None, n), self.tr.mod(own)
        if key not in m.consts: raise Err(f"unknown name {'::'.join(e.segs)}")
        sub = FnTr(self.tr, self.tr.ctx(m)); sub.f.impl = key[0]
        ty, ex = m.consts[key]
        sub.infer(ex)
        v = sub.constval(ex)
        if ex.kind == "Path" and ex.target[0] == "const": v = ex.target[1]
        if v is None: raise Err(f"constant {n}")
        return v
    def constval(self, e):
        if e.kind == "Lit": return e.v
        if e.kind == "Paren": return self.constval(e.e)
        if e.kind == "Path": return e.target[1] if getattr(e, "target", None) and e.target[0] == "const" and isinstance(e.target[1], int) else None
        if e.kind == "Cast": return self.constval(e.e) if is_int(prune(e.ty)) and prune(e.ty) in ("u64", "usize", "i64") else None
        if e.kind == "Bin" and e.op in "+-*/%":
            a, b = self.constval(e.l), self.constval(e.r)
            if a is None or b is None or (e.op in "/%" and b == 0): return None
            v = {"+": a + b, "-": a - b, "*": a * b, "/": a // b if b else 0, "%": a % b if b else 0}[e.op]
            if v < 0 or v >= 2 ** 16: return None
            return v
        return None
    def infer1(self, e):
        k, f, tr = e.kind, self.f, self.tr
        if k == "Lit": return e.suf if e.suf else self.num()
        if k == "Bool": return "bool"
        if k == "Str": return "str"
        if k == "Paren": return self.infer(e.e)
        if k in ("Ref", "Deref"): return self.infer(e.e)
        if k == "Path":
            if e.q is None and len(e.segs) == 1:
                v = self.lookup(e.segs[0])
                if v: e.var = v; return v.ty
                if e.segs[0] == "PhantomData": return "phantom"
            e.var = None
            if e.q is None and len(e.segs) == 1 and f.generics.get(e.segs[0]) == "const":
                e.target = ("gen", e.segs[0]); return "usize"
            e.target = ("const", self.constant(e))
            return "usize"
        if k == "Tuple": return ("tup", [self.infer(x) for x in e.es]) if e.es else "unit"
        if k == "Array":
            t = TV()
            for x in e.es: unify(t, self.infer(x), f"line {e.line}")
            return ("list", t)
        if k == "Repeat":
            unify(self.infer(e.n), "usize")
            return ("list", self.infer(e.e))
        if k == "Not": return self.infer(e.e)
        if k == "Cast":
            self.infer(e.e)
            if e.t[0] == "ptr": return "ptr"
            return tr.rtype(e.t, f)
        if k == "Bin":
            a, b = self.infer(e.l), self.infer(e.r)
            if e.op in ("&&", "||"): unify(a, "bool"); unify(b, "bool"); return "bool"
            if e.op in ("<<", ">>"): return a
            unify(a, b, f"line {e.line}")
            return "bool" if e.op in ("==", "!=", "<", ">", "<=", ">=") else a
        if k == "Assign":
            a, b = self.infer(e.l), self.infer(e.r)
            if e.op not in ("<<", ">>"): unify(a, b, f"line {e.line}")
            return "unit"
        if k == "Range":
            t = TV(True)
            for x in (e.lo, e.hi):
                if x is not None: unify(t, self.infer(x))
            return ("range", t)
        if k == "Index":
            t = strip(self.infer(e.e))
            i = self.infer(e.i)
            if e.i.kind == "Range": unify(i[1], "usize"); return t
            if prune(i) == "sidx" or isinstance(prune(i), tuple) and prune(i)[0] == "rng": return t
            unify(i, "usize", f"line {e.line}")
            el = TV(); unify(t, ("list", el), f"line {e.line}")
            return el
        if k == "Field":
            t = prune(self.infer(e.e))
            if t[0] == "nt" and e.f == "0": return t[3]
            if t[0] == "tup": return t[1][int(e.f)]
            if t[0] == "struct": return tr.field_type(t, e.f)
            raise Err(f"field {e.f} of {show(t)} line {e.line}")
        if k == "Block": return self.block(e)
        if k == "If":
            unify(self.infer(e.c), "bool")
            a = self.block(e.a)
            if e.b is None: return "unit"
            b = self.block(e.b)
            unify(a, b, f"line {e.line}")
            return a
        if k == "Match":
            unify(self.infer(e.e), self.num())
            t = TV()
            for _, x in e.arms: unify(t, self.infer(x), f"line {e.line}")
            return t
        if k == "While":
            unify(self.infer(e.c), "bool"); self.block(e.body)
            return "unit"
        if k == "For": return self.infer_for(e)
        if k == "Return":
            if e.e is not None: unify(self.infer(e.e), self.sig.ret, f"line {e.line}")
            return TV()
        if k == "Try":
            t, err = TV(), TV()
            unify(self.infer(e.e), ("result", t, err)); unify(self.sig.ret, ("result", TV(), err), f"line {e.line}")
            return t
        if k == "Break": return TV()
        if k == "Macro": return self.infer_macro(e)
        if k == "Struct":
            n = e.path[-1]
            t = tr.selftype(f) if n == "Self" else tr.named(f.mod, n, f)
            for fn, x in e.fields: unify(tr.field_type(t, fn), self.infer(x), f"line {e.line} field {fn}")
            if e.base is not None: unify(self.infer(e.base), t)
            return t
        if k == "Call": return self.infer_call(e)
        if k == "MCall": return self.infer_mcall(e)
        raise Err(f"expression {k} line {e.line}")
    def infer_macro(self, e):
        for a in e.args:
            if a.kind != "Str": self.infer(a)
        if e.name in ("assert", "debug_assert"): unify(e.args[0].ty, "bool"); return "unit"
        if e.name in ("assert_eq", "debug_assert_eq"): unify(e.args[0].ty, e.args[1].ty); return "unit"
        if e.name == "unreachable": return TV()
        if e.name == "is_x86_feature_detected": return "bool"
        raise Err(f"macro {e.name}! line {e.line}")
    def call_sig(self, e, g, args):
        s = self.tr.sig(g)
        if len(args) != len(s.params): raise Err(f"arguments of {g.name} line {e.line}")
        for a, (n, t, m) in zip(args, s.params): unify(self.infer(a), t, f"line {e.line}, argument {n}")
        return s.ret
    def infer_call(self, e):
        p = e.f
        if p.kind != "Path": raise Err(f"call of {p.kind}")
        n = p.segs[-1]
        f, tr = self.f, self.tr
        if n == "_mm_set_epi64x":
            for a in e.args: unify(self.infer(a), "i64")
            return "m128"
        if n in MM:
            for i, a in enumerate(e.args):
                t = self.infer(a)
                if i < MM[n][1]: unify(t, "m128")
            return "m128"
        if n == "_mm_loadu_si128": self.infer(e.args[0]); return "m128"
        if n == "_mm_storeu_si128": self.infer(e.args[0]); unify(self.infer(e.args[1]), "m128"); return "unit"
        if n == "min" and len(p.segs) > 1:
            t = self.infer(e.args[0]); unify(t, self.infer(e.args[1])); return t
        if n == "read_volatile": return self.infer(e.args[0])
        if n == "write_volatile": unify(self.infer(e.args[0]), self.infer(e.args[1])); return "unit"
        if n == "size_of": return "usize"
        if p.q is None and p.segs in (["Ok"], ["Err"], ["Some"]):
            t = self.infer(e.args[0])
            return ("opt", t) if n == "Some" else ("result", t, TV()) if n == "Ok" else ("result", TV(), t)
        if n == "from_hex" and p.q is not None and p.q[0] == "arr":
            unify(self.infer(e.args[0]), ("list", "u8")); unify(self.infer(p.q[2]), "usize")
            return ("result", ("list", "u8"), "hexerr")
        if p.q is None and p.segs[-2:] == ["FromHex", "from_hex"]:
            unify(self.infer(e.args[0]), ("list", "u8"))
            e.target = ("fn", f.mod.fns[(f.impl, "FromHex", "from_hex", None)])
            return tr.sig(e.target[1]).ret
        if p.q is None and p.segs[-2:] == ["Ord", "cmp"]:
            a = self.infer(e.args[0]); unify(a, self.infer(e.args[1]))
            return "ordering"
        if n == "copy_nonoverlapping":
            for a in e.args: self.infer(a)
            return "unit"
        if len(p.segs) == 2 and p.segs[0] in INTS and p.q is None:
            w = p.segs[0]
            if n == "from": self.infer(e.args[0]); return w
            if n in ("from_be_bytes", "from_le_bytes"):
                a = e.args[0]
                while a.kind == "MCall" and a.m in ("expect", "try_into"): a = a.e
                unify(strip(self.infer(a)), ("list", "u8"))
                e.inner = a
                return w
            raise Err(f"{w}::{n}")
        # tuple struct constructor
        if p.q is None and (n == "Self" or (n[0].isupper() and len(p.segs) == 1 and n in f.mod.structs)):
            t = tr.selftype(f) if n == "Self" else tr.named(f.mod, n, f)
            if t[0] != "nt": raise Err(f"constructor {n}")
            e.target = ("ctor",)
            real = [a for a in e.args if self.infer(a) != "phantom"]
            unify(real[0].ty, t[3], f"line {e.line}")
            e.real = real[0]
            return t
        e.target = self.resolve(p)
        return self.infer_target(e, e.target, e.args)
    def infer_target(self, e, tg, args):
        if tg[0] == "fn": return self.call_sig(e, tg[1], args)
        if tg[0] == "default": e.dty = TV(); return e.dty
        if tg[0] == "provided":
            s = self.tr.sig(tg[1])
            for a, (n, t, m) in zip(args, s.params): unify(self.infer(a), t, f"line {e.line}")
            return tg[2] if s.ret == ("param", "Self") else s.ret
        if tg[0] == "param":
            ts = [self.infer(a) for a in args]
            m = tg[2]
            if m in ("default", "new", "from_midstate", "engine"):
                if m == "engine": return self.tr.named(self.f.mod, "Engine", self.f)
                return ("param", tg[1])
            if m == "input": return "unit"
            if m == "n_bytes_hashed": return "usize"
            if m in ("finalize", "hash"): return ("list", "u8")
            if m == "midstate": return ("pmid", tg[1])
            raise Err(f"trait function {m}")
        raise Err(f"call {tg}")
    def infer_mcall(self, e):
        m = e.m
        t = prune(self.infer(e.e))
        if isinstance(t, tuple) and t[0] in ("struct", "nt", "param"):
            if t[0] == "param": tg = ("param", t[1], m)
            else:
                g = self.tr.find(self.tr.mod(t[1]), t[2], m)
                tg = ("fn", g) if g else None
            if tg:
                e.target = tg
                return self.infer_target(e, tg, [e.e] + e.args) if tg[0] == "fn" else self.infer_target(e, tg, e.args)
            if m == "clone": e.target = None; return t
        t = strip(t)
        e.target = None
        ats = [self.infer(a) for a in e.args]
        if m == "wrapping_add": unify(t, ats[0], f"line {e.line}"); return t
        if m == "rotate_left": unify(ats[0], "u32"); return t
        if m in ("to_be_bytes", "to_le_bytes"): return ("list", "u8")
        if m == "to_le": return t
        if m in ("len",): return "usize"
        if m == "is_empty": return "bool"
        if m in ("as_ref", "clone", "to_vec"): return t
        if m == "copy_from_slice": unify(t, strip(ats[0]), f"line {e.line}"); return "unit"
        if m == "get_unchecked": unify(ats[0], "usize"); el = TV(); unify(t, ("list", el)); return el
        if m in ("as_ptr", "as_mut_ptr"): return ("ptr", t)
        if m == "add": unify(ats[0], "usize"); return t
        raise Err(f"method {m} on {show(t)} line {e.line}")
    def infer_for(self, e):
        it = e.it
        self.scopes.append({})
        e.pvars = []
        if it.kind == "Range":
            t = self.infer(it)
            e.form = "range"
            self.bindpat(e.p, t[1], e.pvars)
        elif it.kind == "MCall" and it.m == "zip":
            l, r = it.e, it.args[0]
            def part(x):
                if x.kind == "MCall" and x.m in ("iter", "iter_mut", "chunks_exact", "chunks_exact_mut"):
                    el = TV(); unify(strip(self.infer(x.e)), ("list", el))
                    if x.m.startswith("chunks"):
                        unify(self.infer(x.args[0]), "usize")
                        return x.m, x.e, self.constval(x.args[0]), ("list", el)
                    return x.m, x.e, None, el
                el = TV(); unify(strip(self.infer(x)), ("list", el))
                return "iter", x, None, el
            e.form, e.parts = "zip", (part(l), part(r))
            self.bindpat(e.p, ("tup", [e.parts[0][3], e.parts[1][3]]), e.pvars)
        elif it.kind == "MCall" and it.m == "enumerate" and it.e.kind == "MCall" and it.e.m == "iter":
            el = TV(); unify(strip(self.infer(it.e.e)), ("list", el))
            e.form = "enum"
            self.bindpat(e.p, ("tup", ["usize", el]), e.pvars)
        else:
            el = TV(); unify(strip(self.infer(it)), ("list", el))
            e.form = "each"
            self.bindpat(e.p, el, e.pvars)
        self.block(e.body)
        self.scopes.pop()
        return "unit"

    # ------------------------------------------------ static analysis
    def root(self, e):
        while e.kind in ("Field", "Index", "Deref", "Ref", "Paren", "Cast") or (e.kind == "MCall" and e.m in ("as_mut_ptr", "add")): e = e.e
        if e.kind == "Block" and not e.stmts: return self.root(e.tail)
        return e.var if e.kind == "Path" else None
    def effects(self, n, asg, dec, ref):
        """variables assigned, declared, mentioned in n"""
        k = n.kind
        if k == "Assign": asg.append(self.root(n.l))
        elif k == "MCall":
            tg = getattr(n, "target", None)
            if tg and tg[0] == "fn":
                s = self.tr.sig(tg[1])
                for a, p in zip([n.e] + n.args, s.params):
                    if p[2]: asg.append(self.root(a))
            elif tg and tg[0] == "param" and tg[2] == "input": asg.append(self.root(n.e))
            elif n.m == "copy_from_slice": asg.append(self.root(n.e))
        elif k == "Call":
            nm = n.f.segs[-1]
            if nm in ("write_volatile", "_mm_storeu_si128"): asg.append(self.root(n.args[0]))
            elif nm == "copy_nonoverlapping": asg.append(self.root(n.args[1]))
            elif getattr(n, "target", None) and n.target[0] == "fn":
                for a, p in zip(n.args, self.tr.sig(n.target[1]).params):
                    if p[2]: asg.append(self.root(a))
        elif k == "For" and n.form == "zip":
            for pt in n.parts:
                if pt[0].endswith("mut"): asg.append(self.root(pt[1]))
        elif k == "Path" and getattr(n, "var", None): ref.append(n.var)
        if k in ("Let", "For"): dec += [v for v in n.pvars if v]
        for c in children(n):
            if k == "Call" and c is n.f: continue
            self.effects(c, asg, dec, ref)
        if k == "For" and n.form == "zip":
            for pt in n.parts: self.effects(pt[1], asg, dec, ref)
    def muts(self, *ns):
        asg, dec, ref = [], [], []
        for n in ns:
            if n is not None: self.effects(n, asg, dec, ref)
        out = []
        for v in asg:
            if v is not None and v not in dec and v not in out: out.append(v)
        return sorted(out, key=lambda v: self.order.get(v, 10 ** 6))
    def frees(self, *ns):
        asg, dec, ref = [], [], []
        for n in ns: self.effects(n, asg, dec, ref)
        out = []
        for v in ref:
            if v not in dec and v not in out: out.append(v)
        return sorted(out, key=lambda v: self.order.get(v, 10 ** 6))

    # ------------------------------------------------ emission
    def gname(self, v):
        if v.g is None:
            n, i = "v_" + v.name.lstrip("_") if v.name != "_" else "_", 1
            base = n
            while n in self.used and self.used[n] is not v: i += 1; n = f"{base}_{i}"
            self.used[n] = v; v.g = n
            self.order[v] = len(self.order)
        return v.g
    def temp(self):
        self.ntemp += 1
        return f"t{self.ntemp}"
    def let(self, pat, rhs): self.cur.lines.append(("let", pat, rhs)); self.log += re.findall(r"\w+", pat)
    def bind(self, pat, rhs): self.cur.lines.append(("bind", pat, rhs)); self.log += re.findall(r"\w+", pat)
    def bindt(self, rhs):
        t = self.temp(); self.bind(t, rhs); return t
    def sub(self, fn):
        saved, used, nt, c = self.cur, dict(self.used), self.ntemp, Comp()
        self.cur = c
        fn()
        self.cur, self.used, self.ntemp = saved, used, nt
        if c.final is None: raise Err("computation without result")
        return c
    def many(self, es):
        """operands, left to right"""
        out = []
        for e in es:
            n = len(self.log)
            s = self.ev(e)
            for w in self.log[n:]:
                for o in out:
                    if re.search(rf"\b{w}\b", o): raise Err(f"operand {o} changed by a later operand, line {e.line}")
            out.append(s)
        return out
    def tup(self, l):
        return "tt" if not l else l[0] if len(l) == 1 else "(" + ", ".join(l) + ")"
    def line(self, pat, comp):
        if comp.pure(): self.let(pat, comp)
        else: self.bind(pat, comp)

    # places
    def place(self, e):
        k = e.kind
        if k in ("Paren", "Deref", "Ref"): return self.place(e.e)
        if k == "Block" and not e.stmts: return self.place(e.tail)
        if k == "Path":
            if not e.var: raise Err(f"assignment to {e.segs}")
            return ("var", e.var)
        if k == "Field":
            p = self.place(e.e); t = prune(e.e.ty)
            if t[0] == "nt": return p
            if t[0] == "struct": return ("field", p, t, e.f)
            raise Err(f"place .{e.f}")
        if k == "Index" and e.i.kind != "Range":
            p = self.place(e.e)
            return ("index", p, atom(self.ev(e.i)))
        raise Err(f"place {k} line {e.line}")
    def read(self, p):
        if p[0] == "var": return self.gname(p[1])
        if p[0] == "field":
            proj = dict(RECORDS[(p[2][1], p[2][2])][2])[p[3]]
            return f"{proj} {atom(self.read(p[1]))}"
        return self.bindt(f"index {atom(self.read(p[1]))} {p[2]}")
    def write(self, p, val):
        if p[0] == "var": self.let(self.gname(p[1]), val); return
        if p[0] == "field":
            _, mk, fs = RECORDS[(p[2][1], p[2][2])]
            r = atom(self.read(p[1]))
            self.write(p[1], mk + " " + " ".join(atom(val) if f == p[3] else f"({pr} {r})" for f, pr in fs))
            return
        t = self.bindt(f"store {atom(self.read(p[1]))} {p[2]} {atom(val)}")
        self.write(p[1], t)

    # expressions
    def width(self, t):
        t = prune(t)
        if isinstance(t, TV): return "32"
        return "(usize_bits cfg)" if t == "usize" else str(INTS[t])
    def lit(self, v, t):
        t = prune(t)
        if t == "u8":
            if v > 255: raise Err("literal out of range")
            return f"x{v:02x}"
        w = INTS.get(t) if isinstance(t, str) else 32
        if w and v >= 2 ** w: raise Err(f"literal {v} out of range")
        return str(v) if v < 1000 else hex(v)
    def ev(self, e):
        k = e.kind
        c = self.constval(e) if k in ("Lit", "Bin", "Path") else None
        if c is not None: return self.lit(c, e.ty)
        if k == "Bool": return "true" if e.v else "false"
        if k == "Paren" or k in ("Ref", "Deref"): return self.ev(e.e)
        if k == "Path":
            if e.var: return self.gname(e.var)
            if e.target[0] == "gen": return "v_" + e.target[1]
            return f"he_block_size v_{e.target[1][1]}"
        if k == "Tuple" and not e.es: return "tt"
        if k == "Tuple": return "(" + ", ".join(self.many(e.es)) + ")"
        if k == "Array": return "[" + "; ".join(self.many(e.es)) + "]"
        if k == "Repeat":
            n = self.constval(e.n)
            if n is None: n = atom(self.ev(e.n))
            return f"array {atom(self.ev(e.e))} {n}"
        if k == "Not":
            t = prune(e.ty); a = atom(self.ev(e.e))
            if t == "bool": return f"negb {a}"
            if t == "u8": raise Err("! on u8")
            return f"bit_not {self.width(t)} {a}"
        if k == "Cast": return self.cast(self.ev(e.e), e.e.ty, e.ty)
        if k == "Bin": return self.binop(e)
        if k == "Assign": self.assign(e); return "tt"
        if k == "Index":
            if e.i.kind == "Range":
                base = self.ev(e.e)
                if e.i.lo is None and e.i.hi is None: return base
                return self.bindt(self.slice(e.i, atom(base)))
            b, i = self.many([e.e, e.i])
            ti = prune(e.i.ty)
            if ti == "sidx": return self.bindt(f"hash_index cfg {atom(b)} {atom(i)}")
            if ti[0] == "rng":
                if ti[1] == "RangeFull": return b
                return self.bindt({"Range": f"slice_range (fst {i}) (snd {i})", "RangeFrom": f"slice_from {atom(i)}", "RangeTo": f"slice_to {atom(i)}"}[ti[1]] + " " + atom(b))
            return self.bindt(f"index {atom(b)} {atom(i)}")
        if k == "Field":
            t = prune(e.e.ty); b = self.ev(e.e)
            if t[0] == "nt": return b
            if t[0] == "tup":
                n, i = len(t[1]), int(e.f)
                names = ["_"] * n; x = self.temp(); names[i] = x
                self.let("(" + ", ".join(names) + ")", b)
                return x
            return f"{dict(RECORDS[(t[1], t[2])][2])[e.f]} {atom(b)}"
        if k == "Block": return self.inline(e)
        if k == "If": return self.if_expr(e)
        if k == "Match": return self.match_expr(e)
        if k == "While": self.while_stmt(e); return "tt"
        if k == "For": self.for_stmt(e); return "tt"
        if k == "Macro": return self.macro(e)
        if k == "Struct": return self.struct(e)
        if k == "Call": return self.call(e)
        if k == "MCall": return self.mcall(e)
        raise Err(f"emit {k} line {e.line}")
    def slice(self, r, base):
        ops = self.many([x for x in (r.lo, r.hi) if x is not None])
        if r.incl: raise Err("..=")
        if r.lo is None: return f"slice_to {atom(ops[0])} {base}"
        if r.hi is None: return f"slice_from {atom(ops[0])} {base}"
        return f"slice_range {atom(ops[0])} {atom(ops[1])} {base}"
    def cast(self, s, a, b):
        a, b = prune(a), prune(b)
        if isinstance(a, TV): a = b
        if a == b or (a, b) in (("u64", "i64"),): return s
        if a == "u8": return f"b2n {atom(s)}"
        if b == "u8": return f"u8 {atom(s)}"
        wa, wb = INTS[a] or 0, INTS[b] or 0
        if a == "usize" and b == "u64": return s
        if b == "usize": return f"{atom(s)} mod 2 ^ usize_bits cfg"
        if wa and wb and wa <= wb: return s
        return f"{atom(s)} mod 2 ^ {wb}"
    def binop(self, e):
        op = e.op
        if op in ("&&", "||"):
            a = self.ev(e.l)
            box = []
            def r(): box.append(self.ev(e.r)); self.cur.final = ("val", box[0])
            c = self.sub(r)
            if not c.lines and not TRACE: return f"{atom(a)} {op} {atom(box[0])}"
            o = Comp(); o.final = ("val", "false" if op == "&&" else "true")
            d = Comp(); d.final = ("if", a, c, o) if op == "&&" else ("if", a, o, c)
            t = self.temp(); self.line(t, d)
            return t
        l, r = self.many([e.l, e.r])
        return self.arith(op, l, r, e.l.ty, e.r.ty, self.constval(e.r))
    def arith(self, op, l, r, t, tr, cr):
        t = prune(t); l, r = atom(l), atom(r)
        if op in ("==", "!=", "<", ">", "<=", ">="):
            if t == "u8": l, r = f"b2n {l}", f"b2n {r}"
            elif isinstance(t, tuple) and t[0] == "list" and prune(t[1]) == "u8" and op == "==":
                if TRACE: raise Err("comparison of slices in a traced function")
                return f"array_eq {l} {r}"
            elif not (is_int(t) or isinstance(t, TV)): raise Err(f"comparison of {show(t)}")
            if op == "!=": return f"negb ({l} =? {r})"
            if op == ">": return f"{r} <? {l}"
            if op == ">=": return f"{r} <=? {l}"
            return f"{l} {'=?' if op == '==' else op + '?'} {r}"
        if t == "u8":
            if op in "^|&": return f"{ {'^': 'u8_xor', '|': 'u8_or', '&': 'u8_and'}[op]} {l} {r}"
            if op == ">>" and cr is not None and cr < 8: return f"u8_shr {l} {r}"
            raise Err(f"u8 {op}")
        if t == "bool": raise Err(f"bool {op}")
        if op in "^|&": return f"{ {'^': 'N.lxor', '|': 'N.lor', '&': 'N.land'}[op]} {l} {r}"
        w = self.width(t)
        if op in ("<<", ">>"):
            if prune(tr) == "u8": raise Err("u8 shift amount")
            if cr is not None and w.isdigit() and cr < int(w):
                return f"N.shiftr {l} {r}" if op == ">>" else f"N.shiftl {l} {r} mod 2 ^ {w}"
            return self.bindt(f"checked_{'shr' if op == '>>' else 'shl'} cfg {w} {l} {r}")
        if op in "/%":
            if cr: return f"{l} / {r}" if op == "/" else f"{l} mod {r}"
            return self.bindt(f"checked_{'div' if op == '/' else 'rem'} {l} {r}")
        n = {"+": "add", "-": "sub", "*": "mul"}[op]
        if t == "usize": return self.bindt(f"usize_{n} cfg {l} {r}")
        return self.bindt(f"checked_{n} cfg {w} {l} {r}")
    def assign(self, e):
        r = self.ev(e.r)
        n = len(self.log)
        p = self.place(e.l)
        if any(re.search(rf"\b{w}\b", r) for w in self.log[n:]): raise Err("operand order")
        if e.op:
            v = self.arith(e.op, self.read(p), r, e.l.ty, e.r.ty, self.constval(e.r))
            self.write(p, v)
        else: self.write(p, r)
    def struct(self, e):
        t = prune(e.ty)
        vals = dict(zip([n for n, _ in e.fields], self.many([x for _, x in e.fields])))
        _, mk, fs = RECORDS[(t[1], t[2])]
        if e.base is not None:
            b = atom(self.ev(e.base))
            for f, pr in fs: vals.setdefault(f, f"({pr} {b})")
        if set(vals) != {f for f, _ in fs}: raise Err(f"fields of {t[2]}")
        return mk + " " + " ".join(atom(vals[f]) for f, _ in fs)
    def macro(self, e):
        n = e.name
        if n == "unreachable": return self.bindt("Panic PUnreachable")
        if n == "is_x86_feature_detected": return "sha_ni cfg"
        def cond():
            if n.endswith("_eq"):
                a, b = self.many(e.args[:2])
                return self.arith("==", a, b, e.args[0].ty, e.args[1].ty, None)
            return self.ev(e.args[0])
        if not n.startswith("debug_"):
            c = cond(); self.bind("_", f"assert {atom(c)}"); return "tt"
        box = []
        def r():
            box.append(cond()); self.cur.final = ("m", f"assert {atom(box[0])}")
        c = self.sub(r)
        if not c.lines: self.bind("_", f"debug_assert cfg {atom(box[0])}"); return "tt"
        o = Comp(); o.final = ("val", "tt")
        d = Comp(); d.final = ("if", "debug_assertions cfg", c, o)
        self.bind("_", d)
        return "tt"
    def memory(self, e):
        """x.as_ptr().add(off) as *const __m128i: array, offset, element type"""
        if e.kind != "Cast" or e.e.kind != "MCall" or e.e.m != "add": raise Err(f"pointer expression line {e.line}")
        a = e.e
        if a.e.kind != "MCall" or a.e.m not in ("as_ptr", "as_mut_ptr"): raise Err("pointer expression")
        return a.e.e, a.args[0], prune(strip(a.e.e.ty)[1])
    def call(self, e):
        p, n, args = e.f, e.f.segs[-1], e.args
        if n == "_mm_set_epi64x": return "set_epi64x " + " ".join(map(atom, self.many(args)))
        if n in MM: return MM[n][0] + " " + " ".join(map(atom, self.many(args)))
        if n == "_mm_loadu_si128":
            arr, off, el = self.memory(args[0])
            a, o = self.many([arr, off])
            return self.bindt(f"{'load_m128_words' if el == 'u32' else 'load_m128_bytes'} {atom(a)} {atom(o)}")
        if n == "_mm_storeu_si128":
            arr, off, el = self.memory(args[0])
            if el != "u32": raise Err("store")
            pl = self.place(arr); o, v = self.many([off, args[1]])
            t = self.bindt(f"store_m128_words {atom(self.read(pl))} {atom(o)} {atom(v)}")
            self.write(pl, t)
            return "tt"
        if n == "min" and len(p.segs) > 1 and getattr(e, "target", None) is None:
            m = "N.min " + " ".join(map(atom, self.many(args)))
            return self.bindt("t_min" + m[5:]) if TRACE else m
        if n == "read_volatile": return self.ev(args[0])
        if n == "write_volatile":
            v = self.ev(args[1]); self.write(self.place(args[0]), v); return "tt"
        if p.q is None and p.segs in (["Ok"], ["Err"], ["Some"]):
            return {"Ok": "ROk", "Err": "RErr", "Some": "Some"}[n] + " " + atom(self.ev(args[0]))
        if n == "from_hex" and p.q is not None and p.q[0] == "arr":
            c = self.constval(p.q[2])
            return f"array_from_hex {c if c is not None else atom(self.ev(p.q[2]))} {atom(self.ev(args[0]))}"
        if p.q is None and p.segs[-2:] == ["FromHex", "from_hex"]: return self.do_call(e, e.target, args)
        if p.q is None and p.segs[-2:] == ["Ord", "cmp"]:
            t = prune(args[0].ty)
            if t[0] == "nt":
                g = self.tr.mod(t[1]).fns.get((t[2], "Ord", "cmp", None))
                if not g: raise Err("derived cmp")
                return self.do_call(e, ("fn", g), args)
            unify(t, ("list", "u8"))
            return "array_cmp " + " ".join(map(atom, self.many(args)))
        if n == "size_of": return str(INTS[p.targ[1][-1]] // 8)
        if n == "copy_nonoverlapping":
            g = args[0]
            if not (g.kind == "MCall" and g.m == "get_unchecked"): raise Err("copy_nonoverlapping source")
            dst = self.root(args[1])
            b, i, k = self.many([g.e, g.args[0], args[2]])
            self.bind(self.gname(dst), f"load_native cfg {k}%nat {atom(b)} {atom(i)}")
            if INTS[prune(dst.ty)] != 8 * int(k): raise Err("copy_nonoverlapping size")
            return "tt"
        if len(p.segs) == 2 and p.segs[0] in INTS and p.q is None:
            w = INTS[p.segs[0]] // 8
            if n == "from":
                if INTS[prune(args[0].ty)] > 8 * w: raise Err("narrowing from")
                return self.cast(self.ev(args[0]), args[0].ty, p.segs[0])
            v = self.ev(e.inner)
            if e.inner is args[0]: return f"le_value {atom(v)}" if "le" in n else f"le_value (rev {atom(v)})"
            return self.bindt(f"{n} {w} {atom(v)}")
        if e.target[0] == "ctor": return self.ev(e.real)
        return self.do_call(e, e.target, args)
    def do_call(self, e, tg, args):
        if tg[0] == "fn":
            s = self.tr.sig(tg[1]); o = self.tr.callee(tg[1])
            vals, places = [], []
            n0 = len(self.log)
            for a, (nm, ty, m) in zip(args, s.params):
                n = len(self.log)
                if m:
                    pl = self.place(a); places.append(pl); vals.append(self.read(pl))
                else: vals.append(self.ev(a))
                for w in self.log[n:]:
                    for x in vals[:-1]:
                        if re.search(rf"\b{w}\b", x): raise Err(f"operand {x} changed by a later argument, line {e.line}")
            ep = []
            for g in s.eparam:
                if g in self.f.generics: ep.append(("l_" if TRACE and o.mon and g in ("E", "Self") else "v_") + g)
                else: raise Err(f"type parameter {g}")
            c = " ".join([fname(s, o)] + (["cfg"] if o.cfg else []) + ep + [atom(v) for v in vals])
            if not places and not o.mon: return c
            pats, rv = [], "tt"
            if prune(s.ret) != "unit": rv = self.temp(); pats.append(rv)
            ts = []
            for pl in places:
                if pl[0] == "var": ts.append(None); pats.append(self.gname(pl[1]))
                else: t = self.temp(); ts.append(t); pats.append(t)
            pat = self.tup(pats) if pats else "_"
            (self.bind if o.mon else self.let)(pat, c)
            for pl, t in zip(places, ts):
                if t: self.write(pl, t)
            return rv
        if tg[0] == "provided":
            o = self.tr.callee(tg[1])
            return self.bindt(" ".join([fname(self.tr.sig(tg[1]), o)] + (["cfg"] if o.cfg else []) + [f"({'t' if TRACE else 'g'}_{tg[2][1]}_{tg[2][2]}_dict cfg)"]
                                       + [atom(x) for x in self.many(args)]))
        if tg[0] == "default":
            t = prune(e.ty)
            if t[0] == "param": return self.bindt(f"te_default l_{t[1]}" if TRACE else f"he_default v_{t[1]}")
            g = self.tr.mod(t[1]).fns.get((t[2], "Default", "default", None))
            if not g: raise Err("Default::default()")
            return self.do_call(e, ("fn", g), [])
        if tg[0] == "param":
            _, E, m = tg
            if m == "engine": return self.bindt(f"v_{E}")
            if m in ("hash", "new"):
                g = self.tr.find(self.tr.mod("lib"), "trait HashEngine", m)
                o = self.tr.callee(g)
                return self.bindt(" ".join([fname(self.tr.sig(g), o)] + (["cfg"] if o.cfg else []) + [("l_" if TRACE else "v_") + E] + [atom(x) for x in self.many(args)]))
            fld, mon = PARAM[m]
            if TRACE and mon: fld, E = "te" + fld[2:], "l_" + E
            else: E = "v_" + E
            c = " ".join([fld, E] + [atom(x) for x in self.many(args)])
            return self.bindt(c) if mon else c
        raise Err(f"call {tg}")
    def mcall(self, e):
        m, tg = e.m, e.target
        if tg and tg[0] == "fn": return self.do_call(e, tg, [e.e] + e.args)
        if tg and tg[0] == "param":
            if m == "input":
                pl = self.place(e.e); d = self.ev(e.args[0])
                t = f"{'te_input l' if TRACE else 'he_input v'}_{tg[1]} {atom(self.read(pl))} {atom(d)}"
                if pl[0] == "var": self.bind(self.gname(pl[1]), t)
                else: self.write(pl, self.bindt(t))
                return "tt"
            return self.do_call(e, tg, [e.e] + e.args)
        if m == "copy_from_slice":
            r = e.e
            while r.kind == "Paren": r = r.e
            if r.kind == "Index" and r.i.kind == "Range":
                pl = self.place(r.e)
                ops = [self.ev(x) if x is not None else None for x in (r.i.lo, r.i.hi)]
                base = atom(self.read(pl))
                if None in ops: raise Err("copy into open range")
                part = self.bindt(f"slice_range {atom(ops[0])} {atom(ops[1])} {base}")
                src = self.ev(e.args[0])
                t = self.bindt(f"copy_from_slice {part} {atom(src)}")
                self.write(pl, f"splice {atom(ops[0])} {atom(ops[1])} {atom(self.read(pl))} {t}")
                return "tt"
            pl = self.place(r); src = self.ev(e.args[0])
            c = f"copy_from_slice {atom(self.read(pl))} {atom(src)}"
            if pl[0] == "var": self.bind(self.gname(pl[1]), c)
            else: self.write(pl, self.bindt(c))
            return "tt"
        vals = self.many([e.e] + e.args)
        a = atom(vals[0])
        t = strip(e.e.ty)
        if m == "wrapping_add": return f"wrapping_add {self.width(t)} {a} {atom(vals[1])}"
        if m == "rotate_left":
            n = self.constval(e.args[0])
            if n is not None and not 0 < n < INTS[t]: return f"rotate_left_mod {self.width(t)} {n} {a}"
            return f"rotate_left {self.width(t)} {atom(vals[1])} {a}"
        if m in ("to_be_bytes", "to_le_bytes"): return f"{m} {INTS[t] // 8} {a}"
        if m == "to_le": return f"to_le cfg {INTS[t] // 8}%nat {a}"
        if m == "len": return f"len {a}"
        if m == "is_empty": return f"len {a} =? 0"
        if m in ("as_ref", "clone", "to_vec"): return vals[0]
        if m == "get_unchecked": return self.bindt(f"get_unchecked {a} {atom(vals[1])}")
        raise Err(f"method {m} line {e.line}")

    # control
    def inline(self, b):
        for s in b.stmts: self.stmt(s)
        return "tt" if b.tail is None else self.ev(b.tail)
    def branch(self, b, ms, val):
        def r():
            v = self.ev(b) if b.kind != "Block" else self.inline(b)
            if self.cur.final is None:
                self.cur.final = ("val", self.tup([self.gname(x) for x in ms] + ([v] if val else [])))
        return self.sub(r)
    def finish(self, comp, ms, val):
        pats = [self.gname(x) for x in ms]
        v = "tt"
        if val: v = self.temp(); pats.append(v)
        self.line(self.tup(pats) if pats else "_", comp)
        return v
    def if_expr(self, e):
        c = self.ev(e.c)
        ms = self.muts(e.a, e.b)
        for v in ms: self.gname(v)
        val = prune(e.ty) != "unit"
        a = self.branch(e.a, ms, val)
        b = self.branch(e.b if e.b is not None else Node("Block", stmts=[], tail=None), ms, val)
        d = Comp(); d.final = ("if", c, a, b)
        if not ms and not val and d.pure(): return "tt"
        return self.finish(d, ms, val)
    def match_expr(self, e):
        s = self.ev(e.e)
        if not re.fullmatch(r"\w+", s):
            t = self.temp(); self.let(t, s); s = t
        ms = self.muts(*[x for _, x in e.arms])
        if ms: raise Err("match with assignments")
        def chain(arms):
            p, x = arms[0]
            c = self.branch(x, [], True)
            if p is None: return c
            d = Comp()
            lo, hi = p
            test = f"{s} <=? {hi}" if lo == 0 else f"({lo} <=? {s}) && ({s} <=? {hi})"
            d.final = ("if", test, c, chain(arms[1:]))
            return d
        return self.finish(chain(e.arms), [], True)
    def fuel(self):
        for key in (f"{self.f.mod.name}.{self.f.name}", self.f.name):
            if key in FUEL and self.nloop < len(FUEL[key]): return FUEL[key][self.nloop]
        raise Err(f"no fuel for loop {self.nloop} of {self.f.name}")
    def while_stmt(self, e):
        old = self.loopnames.get(id(e))      # the same loop in another continuation
        if old: name, fuel = old
        else:
            fuel = self.fuel()
            self.nloop += 1
            name = f"@NAME@_loop{self.nloop}"
            self.loopnames[id(e)] = (name, fuel)
        ms = self.muts(e)
        fs = [v for v in self.frees(e) if v not in ms]
        for v in ms + fs: self.gname(v)
        tup = lambda: self.tup([self.gname(v) for v in ms])
        call = lambda fu: f"{name} {fu} @CFG@" + " ".join([self.gname(v) for v in fs + ms])
        if old: self.bind(tup(), call(atom(fuel))); return
        saved = self.brk
        self.brk = lambda: ("val", tup())
        def r():
            c = self.ev(e.c)
            def body():
                def k(v): self.cur.final = ("m", call("fuel"))
                self.cps(e.body.stmts + ([Node("Expr", e.line, e=e.body.tail)] if e.body.tail is not None else []), None, k)
            b = self.sub(body)
            f = Comp(); f.final = ("fuel", b)
            s = Comp(); s.final = ("val", tup())
            self.cur.final = ("if", c, f, s)
        c = self.sub(r)
        self.brk = saved
        params = " ".join(f"({self.gname(v)} : {gtype(v.ty)})" for v in fs + ms)
        ty = " * ".join(gtype(v.ty) for v in ms)
        self.loops.append((name, params, ty, c))
        self.bind(tup(), call(atom(fuel)))
    def for_stmt(self, e):
        ms = self.muts(e.body)
        vs = e.pvars
        if e.form in ("range", "each", "enum"):
            ms = [v for v in ms if v not in vs]
            for v in ms: self.gname(v)
            if e.form == "range":
                lo, hi = self.many([e.it.lo, e.it.hi])
                lo, hi = atom(lo), atom(hi)
            else: xs = atom(self.ev(e.it if e.form == "each" else e.it.e.e))
            tup = self.tup([self.gname(v) for v in ms])
            def r():
                self.inline(e.body); self.cur.final = ("val", tup)
            names = [self.gname(v) if v else "_" for v in vs]
            c = self.sub(r)
            acc = tup if re.fullmatch(r"\w+", tup) else "'" + tup
            def fn(ns): return f"(fun {' '.join(ns)} {acc} =>\n{render(c, True, 6)})"
            if e.form == "range":
                n = str(int(hi) - int(lo)) if hi.isdigit() and lo.isdigit() else f"(N.to_nat ({hi} - {lo}))"
                self.bind(tup, f"for_loop {n} {lo} {fn(names)} {tup}")
            elif e.form == "each": self.bind(tup, f"for_each {xs} {fn(names)} {tup}")
            else: self.bind(tup, f"for_enum {xs} 0 {fn(names)} {tup}")
            return
        (k1, x1, n1, _), (k2, x2, n2, _) = e.parts
        def chunk(s, n): return f"(chunks_exact {n} {s})" if n else s
        for v in vs: self.gname(v)
        mutv = vs[0] if k1.endswith("mut") else vs[1] if k2.endswith("mut") else None
        if mutv is None or [v for v in ms if v is not mutv]: raise Err(f"zip loop line {e.line}")
        def r():
            self.inline(e.body); self.cur.final = ("val", self.gname(mutv))
        if k1.endswith("mut"): pl = self.place(x1); d = self.read(pl); s = self.ev(x2)
        else: s = self.ev(x1); pl = self.place(x2); d = self.read(pl)
        c = self.sub(r)
        body = f"(fun {self.gname(vs[0])} {self.gname(vs[1])} =>\n{render(c, True, 6)})"
        if k1 == "iter_mut": t = f"zip_iter_mut {atom(d)} {atom(chunk(atom(s), n2))} {body}"
        elif k2 == "chunks_exact_mut" and k1 == "iter": t = f"zip_chunks_mut {atom(s)} {n2} {atom(d)} {body}"
        else: raise Err(f"zip loop line {e.line}")
        if pl[0] == "var": self.bind(self.gname(pl[1]), t)
        else: self.write(pl, self.bindt(t))
    def pattern(self, p, vs):
        it = iter(vs)
        def go(p):
            if p[0] == "tup": return "(" + ", ".join(go(q) for q in p[1]) + ")"
            v = next(it)
            return self.gname(v) if v else "_"
        return go(p)
    def stmt(self, s):
        if s.kind == "Let":
            if s.e is None:
                for v in s.pvars: self.gname(v) if v else None
                return
            r = self.ev(s.e)
            pat = self.pattern(s.p, s.pvars)
            last = self.cur.lines[-1] if self.cur.lines else None
            if last and re.fullmatch(r"t\d+", r) and last[1] == r and re.fullmatch(r"\w+", pat):
                self.cur.lines[-1] = (last[0], pat, last[2]); self.log.append(pat)     # let* t := e in let x := t
            else: self.let(pat, r)
        elif s.kind == "Mac":
            inner = s.stmts
            while len(inner) == 1 and inner[0].kind == "Expr" and inner[0].e.kind == "Block" and inner[0].e.tail is None: inner = inner[0].e.stmts
            if len(inner) == 1 and inner[0].kind == "Mac":       # a macro that is another macro
                self.stmt(inner[0])
                return
            ms = self.muts(*s.stmts)
            for v in ms: self.gname(v)
            def r():
                for x in s.stmts: self.stmt(x)
                self.cur.final = ("val", self.tup([self.gname(v) for v in ms]))
            c = self.sub(r)
            self.finish(c, ms, False)
        else:
            e = s.e
            if e.kind == "Block": self.inline(e)
            else: self.ev(e)
    def cps(self, stmts, tail, k):
        """statements that may leave by return or break; k ends the computation"""
        for i, s in enumerate(stmts):
            if has_exit(s):
                if s.kind == "Let" and s.e.kind == "Try" and not has_exit(s.e.e):
                    v = self.ev(s.e.e); pat = self.pattern(s.p, s.pvars)
                    c = self.sub(lambda: self.cps(stmts[i + 1:], tail, k))
                    self.cur.final = ("try", v, pat, self.result("RErr err"), c)
                    return
                if s.kind != "Expr": raise Err(f"exit inside {s.kind} line {s.line}")
                return self.cps_expr(s.e, lambda v: self.cps(stmts[i + 1:], tail, k))
            self.stmt(s)
        if tail is None: return k(None)
        if has_exit(tail): return self.cps_expr(tail, k)
        k(self.ev(tail))
    def cps_expr(self, e, k):
        if e.kind == "Return":
            self.cur.final = ("val", self.result(self.ev(e.e) if e.e is not None else "tt")); return
        if e.kind == "Break": self.cur.final = self.brk(); return
        if e.kind == "Block": return self.cps(e.stmts, e.tail, k)
        if e.kind == "Paren": return self.cps_expr(e.e, k)
        if e.kind == "If":
            c = self.ev(e.c)
            a = self.sub(lambda: self.cps(e.a.stmts, e.a.tail, k))
            b = self.sub(lambda: self.cps(e.b.stmts, e.b.tail, k) if e.b is not None else k(None))
            self.cur.final = ("if", c, a, b); return
        raise Err(f"exit inside {e.kind} line {e.line}")
    def result(self, v):
        s = self.sig
        return self.tup(([v] if prune(s.ret) != "unit" else []) + [self.gname(x) for x in self.mutvars])

    def run(self):
        f, s = self.f, self.tr.sig(self.f)
        self.sig = s
        self.order = {}
        pv = []
        for n, t, m in s.params: pv.append(self.declare(n, t))
        b = s.body
        t = self.block(b)
        unify(t if not (has_exit(b) and b.tail is None) else s.ret, s.ret, "result")
        for v in pv: self.gname(v)
        self.mutvars = [v for v, p in zip(pv, s.params) if p[2]]
        c = self.sub(lambda: self.cps(b.stmts, b.tail, lambda v: setattr(self.cur, "final", ("val", self.result(v or "tt")))))
        o = Out()
        o.mon = not c.pure() or TRACE and (f.mod.name, f.impl, f.trait, f.name) in ENTRY
        ext = []
        while o.mon and c.final[0] == "val" and c.lines and c.lines[-1][:2] == ("bind", c.final[1]) and isinstance(c.lines[-1][2], Comp):
            x = c.lines[-1][2]                   # the body is a block
            c.lines, c.final = c.lines[:-1] + x.lines, x.final
        if o.mon and len(c.lines) > 60:
            # a long sequence of lets would be unfolded by the conversion test; as binds it is not
            if sum(k == "let" for k, _, _ in c.lines) > 40:
                c.lines = [("bind", p, "Ok " + atom(r)) if k == "let" and isinstance(r, str) and " " in r and not r.startswith("mk_")
                           else (k, p, r) for k, p, r in c.lines]
            ext, c = parts(c, ["cfg"] + [v.g for v in pv])
        body = render(c, o.mon, 2)
        loops = [(n, p, ty, render(l, True, 2)) for n, p, ty, l in self.loops]
        o.cfg = bool(re.search(r"\bcfg\b", body + "".join(l[3] for l in loops)))
        rts = ([gtype(s.ret)] if prune(s.ret) != "unit" else []) + [gtype(v.ty) for v in self.mutvars]
        rt = " * ".join(rts) if rts else "unit"
        rt = f"{'tm' if TRACE else 'res'} ({rt})" if o.mon else rt
        cfg = "(cfg : config) " if o.cfg else ""
        eps = "".join(f"(v_{g} : { {'T': 'res engine', 'N': 'N'}.get(g, 'HashEngine')}) " for g in s.eparam)
        if TRACE: eps = "".join(f"(v_{g} : { {'T': 'tm engine', 'N': 'N'}[g]}) " if g in "TN" else f"{{v_{g} : HashEngine}} (l_{g} : tengine v_{g}) " for g in s.eparam)
        o.params, o.rt, o.eps = [(v.g, gtype(v.ty)) for v in pv], rt, s.eparam
        ps = " ".join(f"({g} : {ty})" for g, ty in o.params)
        text = ""
        for n, p, ty, l in loops:
            text += f"Fixpoint {n} (fuel : nat) {cfg}{eps}{p} {{struct fuel}} : {'tm' if TRACE else 'res'} ({ty}) :=\n{l}.\n\n"
        for n, p, x in ext: text += f"Definition @NAME@_part{n} {' '.join(p)} : {rt} :=\n{render(x, True, 2)}.\n\n"
        text += f"Definition @NAME@ {cfg}{eps}{ps}{' ' if ps else ''}: {rt} :=\n{body}.\n"
        text = text.replace("@CFG@", "cfg " if o.cfg else "")
        o.text, o.sig, o.f = text, s, f
        return o

# ---------------------------------------------------------------- output
# file, imports, targets: (source file, impl, trait, function) or ("dict", source file)
HE = ["n_bytes_hashed", "input", "finalize", "midstate", "from_midstate"]
def engine_targets(m, impl="Engine"):
    return [(m, impl, "Default", "default")] + [(m, impl, "HashEngine", n) for n in HE] + [("dict", m)]
HT = ["hash", "engine", "from_engine"]
def hash_targets(m): return [(m, "Hash", None, n) for n in HT]
VT = ["from_byte_array", "from_slice", "to_byte_array", "as_byte_array", "as_bytes", "to_bytes", "all_zeros"]
FILES = [
    ("GenCmp", "ModelCmp", [("cmp", None, None, "fixed_time_eq")]),
    ("GenLib", "ModelEngine", [("lib", "trait HashEngine", None, n) for n in ("new", "hash", "hash_byte_chunks")]),
    ("GenSip", "ModelEngine ModelSip GenLib", [("siphash24", "Engine", None, "keys")] + engine_targets("siphash24") + hash_targets("siphash24")
        + [("siphash24", "Hash", None, n) for n in ("hash_with_keys", "hash_to_u64_with_keys", "as_u64", "from_u64")]),
    ("GenSha1", "ModelEngine GenLib", engine_targets("sha1") + hash_targets("sha1")),
    ("GenSha256", "ModelEngine ModelSimd GenLib", engine_targets("sha256") + [("sha256", "Engine", None, "from_midstate")] + hash_targets("sha256")),
    ("GenSha256Const", "ModelEngine GenSha256", [("sha256", "Hash", None, "const_hash"), ("sha256", "Midstate", None, "hash_tag")]),
    ("GenSha512", "ModelEngine GenLib", engine_targets("sha512") + hash_targets("sha512")),
    ("GenSha384", "ModelEngine GenLib GenSha512", engine_targets("sha384") + hash_targets("sha384")
        + engine_targets("sha512_256") + hash_targets("sha512_256")),
    ("GenRipemd", "ModelEngine GenLib", engine_targets("ripemd160") + hash_targets("ripemd160")),
    ("GenHmac", "ModelEngine ModelHmac GenLib", [("hmac", "Engine", None, "new")] + engine_targets("hmac")),
    ("GenSha256t", "ModelEngine GenLib GenSha256", engine_targets("sha256t")),
    ("GenTypes", "ModelEngine ModelTypes GenLib GenSha256 GenSha256t",
        [("lib", "FromSliceError", None, n) for n in ("new", "expected_length", "invalid_length")]
        + [x for m in ("sha1", "sha256", "sha384", "sha512", "sha512_256", "ripemd160", "siphash24")
             for x in [("const", m, "Hash", "LEN")] + [(m, "Hash", None, n) for n in VT] + [(m, "Hash", "AsRef", "as_ref"), (m, "Hash", "AsRefArray", "as_ref"), (m, "Hash", "FromStr", "from_str"), (m, "Hash", "IndexI", "index")]]
        + [("hmac", "Hash", None, n) for n in ["engine", "from_engine"] + VT] + [("hmac", "Hash", "AsRef", "as_ref"), ("hmac", "Hash", "FromStr", "from_str")]
        + [("hmac", "Hash", "Index" + r, "index") for r in ("usize", "Range", "RangeFrom", "RangeTo", "RangeFull")]
        + [("const", "sha256t", "Hash", "LEN")] + [("sha256t", "Hash", None, n) for n in HT + VT]
        + [("sha256t", "Hash", "AsRef", "as_ref"), ("sha256t", "Hash", "AsRefArray", "as_ref"), ("sha256t", "Hash", "FromStr", "from_str"), ("sha256t", "Hash", "IndexI", "index"),
           ("sha256t", "Engine", "HashEngine", "new")]
        + [("sha256t", "Hash", t, n) for t, n in (("Clone", "clone"), ("PartialEq", "eq"), ("Default", "default"), ("PartialOrd", "partial_cmp"), ("Ord", "cmp"))]
        + [("const", "sha256", "Midstate", "LEN")] + [("sha256", "Midstate", None, n) for n in ("from_byte_array", "from_slice")] + [("sha256", "Midstate", t, n) for t, n in (("AsRef", "as_ref"), ("FromHex", "from_hex"), ("FromStr", "from_str"), ("IndexI", "index"))]),
    ("GenIo", "ModelEngine ModelTypes ModelIo ModelSip ModelHmac GenLib GenSha1 GenSha256 GenSha512 GenRipemd GenSip GenHmac GenSha256t",
        [("impls", m + ".Engine", "impl_write", n) for m in ("sha1", "sha256", "sha512", "ripemd160", "siphash24", "sha256t") for n in ("write", "flush")]
        + [("impls", "hmac.Engine", t, n) for t in ("bitcoin_io.Write", "std.io.Write") for n in ("write", "flush")]),
]

# functions that Trace*.v has even if they record nothing
ENTRY = {("siphash24", "Engine", None, "with_keys"), ("siphash24", "Hash", None, "from_engine_to_u64")}
TRACES = [
    ("TraceCmp", "ModelCmp", [("cmp", None, None, "fixed_time_eq")]),
    ("TraceLib", "ModelEngine", [("lib", "trait HashEngine", None, n) for n in ("new", "hash", "hash_byte_chunks")]),
    ("TraceSip", "ModelEngine ModelSip GenSip TraceLib", [("siphash24", "Engine", None, "with_keys")] + engine_targets("siphash24")
        + [("siphash24", "Hash", None, n) for n in ("hash_with_keys", "from_engine_to_u64", "hash_to_u64_with_keys")]),
    ("TraceSha1", "ModelEngine GenSha1 TraceLib", engine_targets("sha1")),
    ("TraceSha256", "ModelEngine ModelSimd GenSha256 TraceLib", engine_targets("sha256") + [("sha256", "Engine", None, "from_midstate")]),
    ("TraceSha512", "ModelEngine GenSha512 TraceLib", engine_targets("sha512")),
    ("TraceSha384", "ModelEngine GenSha512 GenSha384 TraceLib TraceSha512", engine_targets("sha384") + engine_targets("sha512_256")),
    ("TraceRipemd", "ModelEngine GenRipemd TraceLib", engine_targets("ripemd160")),
    ("TraceHmac", "ModelEngine ModelHmac GenHmac TraceLib", [("hmac", "Engine", None, "new")] + engine_targets("hmac")),
    ("TraceSha256t", "ModelEngine GenSha256t TraceLib TraceSha256", engine_targets("sha256t")),
]

# the build with --cfg hashes_fuzz: the same engines
ENGINES = ("sha1", "sha256", "sha512", "sha384", "sha512_256", "ripemd160", "siphash24", "hmac", "sha256t")
FUZZES = [
    ("GenFuzz", "ModelEngine ModelTypes ModelSip ModelHmac GenLib", [x for m in ENGINES for x in engine_targets(m) + (hash_targets(m) if m not in ("hmac", "sha256t") else [])]
        + [("siphash24", "Hash", None, n) for n in ("hash_with_keys", "hash_to_u64_with_keys")]),
]

def target(tr, t):
    m = tr.mod(t[0])
    f = m.fns.get((t[1], t[2], t[3], None))
    if f is None: raise Err(f"{t[0]}.rs: no function {t[3]}")
    return f

def repair(tr):
    """src/sha256.rs:77 names a variable [e] that does not exist (SpecFuzz.v); read as [self]"""
    f = target(tr, ("sha256", "Engine", "HashEngine", "finalize"))
    for i, x in enumerate(f.toks):
        if x.k == "id" and x.v == "e" and f.toks[i + 1].v == ".": f.toks[i] = Tok("id", "self", x.line)

def cite(f):
    return f"src/{f.macro or f.mod.name}.rs:{f.line}-{f.end}"

def name_of(f): return (f.mod.name, f.modname, f.impl, f.trait, f.name)

def dictionary(tr, m):
    """the impl of the trait HashEngine as a record"""
    def fn(n, tn="HashEngine"): return tr.translate(tr.mod(m).fns[("Engine", tn, n, None)])
    o = {n: fn(n) for n in HE}; o["default"] = fn("default", "Default")
    e = o["input"].eps
    args = "(cfg : config)" + "".join(f" (v_{g} : {'res engine' if g == 'T' else 'HashEngine'})" for g in e)
    if TRACE: args = "(cfg : config)" + "".join(f" (v_{g} : tm engine)" if g == "T" else f" {{v_{g} : HashEngine}} (l_{g} : tengine v_{g})" for g in e)
    ep = "".join(f" v_{g}" for g in e)
    def use(n):
        x = o[n]
        c = fname(x.sig, x) + (" cfg" if x.cfg else "") + "".join(f" {'l' if TRACE and x.mon and g != 'T' else 'v'}_{g}" for g in x.eps)
        k = len(x.params)
        if n == "n_bytes_hashed" or x.mon: return c
        vs = " ".join(f"x{i}" for i in range(k))
        ok = "tret" if TRACE else "Ok"
        if TRACE: c = re.sub(r"\bv_T\b", "(snd v_T)", c)
        return f"fun {vs} => {ok} ({c} {vs})" if k else f"{ok} ({c})" if " " in c else f"{ok} {c}"
    st = o["input"].params[0][1]; mid = o["from_midstate"].params[0][1]
    ctx = o["input"].f
    c = FnTr(tr, ctx)
    b = c.constant(Node("Path", segs=["BLOCK_SIZE"], q=("path", ["Self"], []), targ=None))
    bs = str(b) if isinstance(b, int) else f"he_block_size v_{b[1]}"
    if TRACE:
        own = "".join(" (snd v_T)" if g == "T" else f" v_{g}" for g in e)
        return (f"(** impl HashEngine for Engine, src/{m}.rs *)\nDefinition t_{m}_Engine_dict {args} : tengine (g_{m}_Engine_dict cfg{own}) :=\n"
                f"  mk_tengine (g_{m}_Engine_dict cfg{own})\n" + "\n".join(f"    ({use(n)})" for n in ("default", "input", "finalize", "midstate", "from_midstate")) + ".\n")
    return (f"(** impl HashEngine for Engine, src/{m}.rs *)\nDefinition g_{m}_Engine_dict {args} : HashEngine :=\n"
            f"  {{| he_state := {st};\n     he_mid := {mid};\n     he_block_size := {bs};\n     he_default := {use('default')};\n"
            f"     he_input := {use('input')};\n     he_n_bytes_hashed := {use('n_bytes_hashed')};\n     he_finalize := {use('finalize')};\n"
            f"     he_midstate := {use('midstate')};\n     he_from_midstate := {use('from_midstate')} |}}.\n")

def main():
    trs = write(FILES, "GenBase")
    import rs2v_text
    open(os.path.join(OUT, "GenText.v"), "w").write(rs2v_text.All(trs[0]).run())
    import rs2v_decl
    open(os.path.join(OUT, "GenDecl.v"), "w").write(rs2v_decl.All(trs[0]).run())
    import rs2v_build
    open(os.path.join(OUT, "GenBuild.v"), "w").write(rs2v_build.All(SRC).run())
    global TRACE
    TRACE = True
    write(TRACES, "GenBase TraceBase")
    TRACE = False
    global FUZZ
    FUZZ = True
    write(FUZZES, "GenBase")
    FUZZ = False
    import rs2v_fuzz
    open(os.path.join(OUT, "GenScope.v"), "w").write(rs2v_fuzz.run(ENGINES))
    import rs2v_trait
    open(os.path.join(OUT, "GenTrait.v"), "w").write(rs2v_trait.All(SRC).run())
    import rs2v_api
    open(os.path.join(OUT, "GenApi.v"), "w").write(rs2v_api.Api(SRC).run())

def write(files, base):
    trs = []
    for small in (False, True):
        w = World(small)
        w.load("internal_macros")
        trs.append(Tr(w))
    emitted = set()
    if FUZZ:
        for tr in trs: repair(tr)
    for fn, imports, targets in files:
        chunks = []
        for t in targets:
            if t[0] == "dict":
                a, b = [dictionary(tr, t[1]) for tr in trs]
                if a != b: raise Err("dictionaries differ")
                chunks.append(a); continue
            if t[0] == "const":
                f = trs[0].ctx(trs[0].mod(t[1])); f.impl = t[2]
                v = FnTr(trs[0], f).constant(Node("Path", segs=["Self", t[3]], q=None, targ=None))
                chunks.append(f"(** {t[2]}::{t[3]}, src/{t[1]}.rs *)\nDefinition g_{t[1]}_{t[2]}_{t[3]} : N := {v}.\n"); continue
            for tr in trs: tr.translate(target(tr, t))
            # all functions completed since, small world first for its helpers
            by = [{name_of(f): tr.done[f] for f in tr.order} for tr in trs]
            keys = [name_of(f) for f in trs[1].order] + [name_of(f) for f in trs[0].order]
            for k in keys:
                if k in emitted: continue
                emitted.add(k)
                a, b = by[0].get(k), by[1].get(k)
                o = a or b
                if TRACE and not o.mon: continue
                n = fname(o.sig, o)
                head = f"(** {o.f.name}, {cite(o.f)} *)\n"
                if a and b and a.text != b.text:
                    if (a.mon, a.rt) != (b.mon, b.rt): raise Err(f"{n}: the two builds differ in type")
                    for x, suf in ((a, "_fast"), (b, "_small")):
                        chunks.append(head.replace(" *)", f"; feature small-hash {'on' if suf == '_small' else 'off'} *)") + x.text.replace("@NAME@", n + suf))
                    ps = " ".join(f"({g} : {ty})" for g, ty in a.params); vs = " ".join(g for g, _ in a.params)
                    if not (a.cfg and b.cfg):
                        raise Err(f"{n}: no cfg")
                    chunks.append(head + f"Definition {n} (cfg : config) {ps} : {a.rt} :=\n  if small_hash cfg then {n}_small cfg {vs} else {n}_fast cfg {vs}.\n")
                else: chunks.append(head + o.text.replace("@NAME@", n))
        text = (f"(** Generated by tools/rs2v.py from the Rust source; do not edit. *)\n"
                f"From Verif Require Import Base {imports + ' ' + base if TRACE else base + ' ' + imports}.\n\n" + "\n".join(chunks))
        if FUZZ: text = re.sub(r"\bg_(?!lib_)", "f_", text)
        open(os.path.join(OUT, fn + ".v"), "w").write(text)
    if "--left" in sys.argv and not TRACE and not FUZZ:
        for m in trs[0].w.mods.values():
            for f in m.fns.values():
                if name_of(f) not in emitted: print("not translated:", m.name, f.impl or "", f.trait or "", f.name, cite(f))
    trs[0].emitted = emitted
    return trs

if __name__ == "__main__":
    sys.modules["rs2v"] = sys.modules["__main__"]
    try: main()
    except Err as e: sys.exit(f"rs2v: {e}")
