"""The variables the functions of the HashEngine and Default impls declare and
use, in builds with and without --cfg hashes_fuzz.  Called by rs2v.py; writes
GenScope.v.  The target is ScopeBase.v.

A path of one segment that starts with a lower-case letter and is not called is
a use of a variable; everything else names an item (rs2v_build.py, C86).
"""
import rs2v
from rs2v import Err, Node

def names(p):
    if p is None or p[0] == "wild": return []
    if p[0] == "var": return [p[1]]
    return [n for x in p[1] for n in names(x)]
def s(n): return f'"{n}"'
def lst(l): return "[" + "; ".join(l) + "]"
def node(l):
    l = [x for x in l if x != "SNode []"]
    return l[0] if len(l) == 1 else f"SNode {lst(l)}"
def let(ns, init, body): return f"SLet {lst([s(n) for n in ns])} ({init}) ({body})"

def scope(n):
    if n is None: return "SNode []"
    if isinstance(n, (list, tuple)): return node([scope(x) for x in n])
    if not isinstance(n, Node): return "SNode []"
    k = n.kind
    if k == "Path":
        if n.q is None and len(n.segs) == 1 and (n.segs[0][0].islower() or n.segs[0][0] == "_"): return f"SVar {s(n.segs[0])}"
        return "SNode []"
    if k == "Block": return block(n.stmts, n.tail)
    if k == "Mac": return block(n.stmts, None)
    if k == "For": return let(names(n.p), scope(n.it), scope(n.body))
    if k == "Closure": return let(names(n.p), "SNode []", scope(n.e))
    if k == "IfLet": return node([let(names(n.p), scope(n.e), scope(n.a)), scope(n.b)])
    if k == "Call": return node(([] if n.f.kind == "Path" else [scope(n.f)]) + [scope(x) for x in n.args])
    if k == "Struct": return node([scope(e) for _, e in n.fields] + [scope(n.base)])
    if k == "Match": return node([scope(n.e)] + [scope(e) for _, e in n.arms])
    if k in ("Let", "Expr"): return block([n], None)
    fields = {"Return": ["e"], "Break": [], "Assign": ["l", "r"], "Range": ["lo", "hi"], "Bin": ["l", "r"], "Cast": ["e"], "Not": ["e"],
              "Deref": ["e"], "Ref": ["e"], "Field": ["e"], "MCall": ["e", "args"], "Index": ["e", "i"], "Try": ["e"], "Paren": ["e"],
              "Lit": [], "Str": [], "Bool": [], "Tuple": ["es"], "Array": ["es"], "Repeat": ["e", "n"], "If": ["c", "a", "b"],
              "While": ["c", "body"], "Macro": ["args"]}
    if k not in fields: raise Err(f"scope of {k}")
    return node([scope(getattr(n, f)) for f in fields[k]])

def block(stmts, tail):
    if not stmts: return scope(tail)
    x, rest = stmts[0], stmts[1:]
    if x.kind == "Let": return let(names(x.p), scope(x.e), block(rest, tail))
    return node([scope(x.e if x.kind == "Expr" else x), block(rest, tail)])

def run(mods):
    found, order = {}, []
    for fuzz in (False, True):
        rs2v.FUZZ = fuzz
        w = rs2v.World(False)
        w.load("internal_macros")
        tr = rs2v.Tr(w)
        for m in mods:
            for (impl, trait, name, _), f in w.load(m).fns.items():
                if impl != "Engine" or trait not in ("HashEngine", "Default"): continue
                g = tr.sig(f)
                key = (m, trait, name, rs2v.cite(f))
                text = let([p[0] for p in g.params], "SNode []", scope(g.body))
                if key not in found: found[key] = [text, []]; order.append(key)
                if found[key][0] != text: raise Err(f"{key}: two texts")
                found[key][1].append(fuzz)
    rs2v.FUZZ = False
    rows = []
    for k in order:
        b = found[k][1]
        when = "Always" if len(b) == 2 else "OnlyFuzz" if b[0] else "NeverFuzz"
        rows.append(f"  (** {k[2]}, {k[3]} *)\n  mk_scoped {s(k[0])} {s(k[1])} {s(k[2])} {when}\n    ({found[k][0]})")
    return ("(** Generated by tools/rs2v.py from the Rust source; do not edit. *)\n"
            "From Coq Require Import String List.\nFrom Verif Require Import ScopeBase.\nImport ListNotations.\nOpen Scope string_scope.\n\n"
            "Definition scopes : list scoped := [\n" + ";\n".join(rows) + "\n].\n")
