"""Translates the struct declarations with their attributes, what `derive`
makes of them, and the reference casts.  Called by rs2v.py; writes GenDecl.v.
The target is DeclBase.v.  An attribute, field or expression that is not listed
here is an error.
"""
import rs2v
from rs2v import Err, Parser
from rs2v_text import Text, World, MACRO, is_var, tail_of, strip

TRAITS = ("Copy", "Clone", "PartialEq", "Eq", "PartialOrd", "Ord", "Hash", "Default", "Debug")
MODS = ["sha1", "sha256", "sha384", "sha512", "sha512_256", "ripemd160", "siphash24", "hmac", "sha256t", "lib"]
TYPES = [(m, "Hash") for m in MACRO] + [("sha256", "Midstate"), ("sha256t", "Hash"), ("hmac", "Hash")]
# struct types whose Debug is translated: Gallina type, fields
DEBUG = {("siphash24", "State"): ("sip_state", {"v0": "v0", "v1": "v1", "v2": "v2", "v3": "v3"}),
         ("siphash24", "Engine"): ("sip_engine", {"k0": "sip_k0", "k1": "sip_k1", "length": "sip_length", "state": "sip_st", "tail": "sip_tail", "ntail": "sip_ntail"}),
         ("lib", "FromSliceError"): ("from_slice_error", {"expected": "expected", "got": "got"})}

def name(s): return f'list_byte_of_string "{s}"'

class All:
    def __init__(self, tr):
        self.tr, self.w, self.out = tr, World(False), []
        for m in ("internal_macros", "serde_macros", "lib"): self.w.load(m)
        for m in MODS: self.w.load(m)
    def attributes(self, mod, ty):
        """derived traits and representation"""
        toks, src, line = self.w.mods[mod].attrs[ty]
        derives, repr_ = [], "ReprRust"
        for a in toks:
            if a[0].v == "derive": derives += [x.v for x in a if x.k == "id"][1:]
            elif a[0].v == "repr":
                r = [x.v for x in a[2:-1]]
                if r == ["transparent"]: repr_ = "ReprTransparent"
                elif r == ["C"]: repr_ = "ReprC"
                else: raise Err(f"{mod}::{ty}: repr({' '.join(r)})")
            elif a[0].v not in ("doc", "cfg", "allow", "must_use"): raise Err(f"{mod}::{ty}: attribute {a[0].v}")
        for d in derives:
            if d not in TRAITS: raise Err(f"{mod}::{ty}: derive({d})")
        return derives, repr_, f"src/{src}.rs:{line}"
    def text(self, mod, ty):
        t = Text(self, mod, ty)
        t.m = self.w.mods[mod]
        return t
    def field(self, t, ty):
        """a field of a hash type"""
        if ty[0] == "arr" and ty[1] == ("path", ["u8"], []) and ty[2] is not None: return f"FBytes {t.usize(ty[2])}"
        if ty[0] == "path" and ty[1][-1] == "PhantomData": return "FPhantom"
        if ty[0] == "path" and ty[1][-1] in ("u16", "u32", "u64", "u128"): return f"FWord {int(ty[1][-1][1:]) // 8}"
        if ty == ("unit",): return "FPhantom"
        raise Err(f"{t.mod}::{t.ty}: field of type {ty}")
    def decl(self, t):
        derives, repr_, src = self.attributes(t.mod, t.ty)
        fs = [self.field(t, ty) for n, ty in t.m.structs[t.ty]]
        self.out.append(f"(** struct {t.ty}, {src} *)\nDefinition g_{t.mod}_{t.ty}_decl{t.binders()} : decl :=\n  mk_decl {repr_} [{'; '.join(fs)}].\n")
        return derives, fs
    def params(self, f):
        p = Parser(f.toks, self.w); p.i = 2
        if p.at("<"): p.i = p.skip_angle()
        ps = []
        p.want("(")
        while not p.at(")"):
            q = p.i
            while p.at("&") or p.at("mut"): p.i += 1
            if p.eat("self"): ps.append(("self", [x.v for x in p.t[q:p.i - 1]]))
            else:
                pat = p.pattern(); p.want(":"); ps.append((pat[1], p.type()))
            p.eat(",")
        p.want(")")
        ret = p.type() if p.eat("->") else ("unit",)
        while not p.at("{"): p.i += 1
        return ps, ret, p.block()
    def target(self, t, ty, fs):
        """layout of the type a pointer is cast to"""
        if ty in (("path", ["Self"], []), ("path", [t.ty], [])): return "v_l"
        if ty[0] == "arr" and ty[1] == ("path", ["u8"], []): return f"(array_slayout {t.usize(ty[2])})"
        raise Err("cast to another type")
    def cast(self, t, name, mut, fs):
        """from_bytes_ref, from_bytes_mut: &*(bytes as *const _ as *const Self)"""
        f = t.fn(None, name)
        ps, ret, b = self.params(f)
        if len(ps) != 1 or ps[0][1][0] != "ref": raise Err("parameter of " + name)
        v, (_, m, arg) = ps[0]
        if m != mut or ret[:2] != ("ref", mut) or ret[2] != ("path", ["Self"], []): raise Err("type of " + name)
        if arg[0] != "arr" or arg[1] != ("path", ["u8"], []): raise Err("type of " + name)
        e = tail_of(b)
        if e.kind != "Ref" or e.mut != mut or e.e.kind != "Deref": raise Err("shape of " + name)
        e = e.e.e
        kinds = []
        while e.kind in ("Paren", "Cast"):
            if e.kind == "Cast":
                if e.t[0] != "ptr": raise Err("cast in " + name)
                kinds.append(e.t)
            e = e.e
        if not is_var(e, v) or not kinds: raise Err("shape of " + name)
        if any(k[2] != mut for k in kinds): raise Err("mutability in " + name)   # not accepted, or undefined
        self.out.append(t.head(f) + f"Definition {t.name(None, name)}_arg{t.binders()} : N := {t.usize(arg[2])}.\n"
            f"Definition {t.name(None, name)}{t.binders()} (v_l : slayout) (v_{v} : pointer) : res pointer :=\n"
            f"  slayout_cast {self.target(t, kinds[0][1], fs)} v_{v}.\n")
    def view(self, t, trait, name, out, fs):
        """as_byte_array, as_bytes, as_ref: &self.0"""
        f = t.fn(trait, name)
        ps, ret, b = self.params(f)
        e = tail_of(b)
        if ps[0] != ("self", ["&"]) or e.kind != "Ref" or e.mut: raise Err("shape of " + name)
        e = strip(e)
        if e.kind == "Index" and e.i.kind == "Range" and e.i.lo is None and e.i.hi is None:
            e = strip(e.e)
            if is_var(e, "self"):                       # &self[..] by the Index impl of the type, &self.0[index]
                ips, _, ib = self.params(t.fn("IndexI", "index"))
                e = strip(tail_of(ib))
                if e.kind != "Index" or not is_var(e.i, ips[1][0]): raise Err("shape of index")
                e = strip(e.e)
        if e.kind != "Field" or not is_var(e.e, "self"): raise Err("shape of " + name)
        k = int(e.f)
        if not fs[k].startswith("FBytes"): raise Err("field of " + name)
        self.out.append(t.head(f) + f"Definition g_{t.mod}_{t.ty}_{out}{t.binders()} (v_l : slayout) (v_self : pointer) : pointer :=\n"
            f"  field_ref v_l {k} (field_size ({fs[k]})) v_self.\n")
    def mem(self, t, fs):
        if t.ty == "Hash":
            self.cast(t, "from_bytes_ref", False, fs)
            self.cast(t, "from_bytes_mut", True, fs)
            self.view(t, None, "as_byte_array", "ref_as_byte_array", fs)
            self.view(t, None, "as_bytes", "ref_as_bytes", fs)
            if (t.ty, "AsRefArray") in {(k[0], k[1]) for k in t.m.fns}: self.view(t, "AsRefArray", "as_ref", "ref_as_ref_array", fs)
        self.view(t, "AsRef", "as_ref", "ref_as_ref", fs)
    def traits(self, t, derives, fs):
        """eq, cmp, partial_cmp, core::hash::Hash, Clone, Default: derived or translated from the impl"""
        own = [f for f in fs if f != "FPhantom"]
        nm = f"g_{t.mod}_{t.ty}"
        a, bi = t.args(), t.binders()
        def impl(tr): return (t.ty, tr) in t.m.impls
        def newtype():
            if len(own) != 1 or not own[0].startswith("FBytes"): raise Err(f"{nm}: derive for a struct with fields {fs}")
        def emit(n, ps, ret, body): self.out.append(f"(** {n} of {t.mod}::{t.ty} *)\nDefinition {nm}_{n}{bi}{ps} : {ret} :=\n  {body}.\n")
        two = " (v_self v_other : bytes)"
        for tr, n, ps, args, ret, body in (
                ("Clone", "the_clone", " (v_self : bytes)", ["v_self"], "bytes", "v_self"),
                ("PartialEq", "the_eq", two, ["v_self", "v_other"], "bool", "array_eq v_self v_other"),
                ("Ord", "the_cmp", two, ["v_self", "v_other"], "comparison", "array_cmp v_self v_other"),
                ("PartialOrd", "the_partial_cmp", two, ["v_self", "v_other"], "option comparison", "Some (array_cmp v_self v_other)"),
                ("Default", "the_default", "", [], "bytes", "byte_zeros")):
            fn = n[4:]
            if tr in derives:
                if impl(tr): raise Err(f"{nm}: {tr} twice")
                newtype()
                if tr == "Default": body = f"repeat x00 (N.to_nat ({own[0][7:]}))"
                emit(n, ps, ret, body)
            elif impl(tr):
                f = rs2v.target(self.tr, (t.mod, t.ty, tr, fn))
                o = self.tr.translate(f)
                if o.mon or o.cfg: raise Err(f"{nm}: {fn} can panic")
                if rs2v.name_of(f) not in self.tr.emitted:
                    self.out.append(t.head(f) + o.text.replace("@NAME@", rs2v.fname(o.sig, o)))
                emit(n, ps, ret, rs2v.fname(o.sig, o) + "".join(f" v_{g}" for g in o.eps) + "".join(" " + x for x in args))
            elif tr != "Default": raise Err(f"{nm}: no {tr}")
        if "Hash" in derives:
            newtype(); emit("the_hash", " (v_self : bytes)", "list hasher_call", "array_hash v_self")
        elif impl("Hash"): emit("the_hash", " (v_self : bytes)", "list hasher_call", f"{nm}_core_hash{a} v_self")
        else: raise Err(f"{nm}: no Hash")
        for m in ("Eq", "Copy"):
            if m not in derives and not impl(m): raise Err(f"{nm}: no {m}")
    def debug(self, mod, ty):
        derives, _, src = self.attributes(mod, ty)
        m = self.w.mods[mod]
        if "Debug" not in derives or (ty, "Debug") in m.impls: raise Err(f"{mod}::{ty}: Debug not derived")
        g, proj = DEBUG[(mod, ty)]
        fs = []
        for n, fty in m.structs[ty]:
            if n not in proj: raise Err(f"{mod}::{ty}: field {n}")
            x = f"{proj[n]} v_self"
            if fty in (("path", ["u64"], []), ("path", ["usize"], []), ("path", ["u32"], [])): d = f"DNum ({x})"
            elif fty[0] == "path" and (mod, fty[1][-1]) in DEBUG: d = f"g_{mod}_{fty[1][-1]}_debug ({x})"
            else: raise Err(f"{mod}::{ty}: Debug of {fty}")
            fs.append(f"({name(n)}, {d})")
        self.out.append(f"(** derive(Debug) of {mod}::{ty}, {src} *)\nDefinition g_{mod}_{ty}_debug (v_self : {g}) : dbg :=\n"
            f"  DStruct ({name(ty)})\n    [" + ";\n     ".join(fs) + "].\n")
    def run(self):
        for mod, ty in TYPES:
            t = self.text(mod, ty)
            try:
                derives, fs = self.decl(t)
                self.mem(t, fs)
                self.traits(t, derives, fs)
            except Err as e: raise Err(f"{mod}::{ty}: {e}")
        for mod, ty in DEBUG: self.debug(mod, ty)
        rows = []
        for mod in MODS:
            for ty in self.w.mods[mod].structs:
                derives, _, _ = self.attributes(mod, ty)
                ms = sorted({tr for o, tr in self.w.mods[mod].impls if o == ty and tr in TRAITS} | set(derives), key=TRAITS.index)
                rows.append(f"({name(mod)}, {name(ty)}, [{'; '.join('D' + x for x in ms)}])")
        self.out.append("(** Every struct of the crate, with the traits of these nine that it derives or implements *)\n"
            "Definition g_structs : list (bytes * bytes * list trait_name) :=\n  [" + ";\n   ".join(rows) + "].\n")
        return ("(** Generated by tools/rs2v_decl.py from the Rust source; do not edit. *)\n"
                "From Coq Require Import Strings.Byte Strings.String.\n"
                "From Verif Require Import Base ModelEngine ModelTypes ModelValues ModelSip ModelMem GenBase GenTypes GenText DeclBase.\nOpen Scope list_scope.\n\n"
                + "\n".join(self.out))
