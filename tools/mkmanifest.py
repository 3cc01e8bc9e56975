#!/usr/bin/env python3
"""Generates /verif/MANIFEST.json from the theorem names in rocq/theories/Prop*.v."""
import glob, json, os, re
root = os.path.join(os.path.dirname(os.path.abspath(__file__)), "..")
NOTES = {
 "C13": "C13_overflow_exact is the full behaviour; C13_overflow_differs says the wrapped digest is not the standard one unless an explicit collision is found; C13_wrap_refuted is a concrete wrap.",
 "C20": "The code violates the resume property: C20_ripemd160_resume_refuted; C20_ripemd160_midstate_reversed says exactly what it does instead.",
 "C21": "The code violates the resume property: from_midstate panics for every input (C21_sha512_resume_refuted).",
 "C22": "The code violates the resume property: refuted by a witness, shown wrong for every non-empty engine, and the exact behaviour is C22_siphash_resume_exact.",
 "C23": "Holds before a message block is consumed (C23_hmac_resume_fresh), refuted afterwards by a witness; the exact result is C23_hmac_resume_exact, and C23_hmac_resume_wrong says it is wrong for every non-empty message up to explicit collisions.",
 "C35": "Forward direction proved; the converse is refuted for every type with a schema, and the schema of hmac::Hash<N> is shown wrong for 2^31 <= N < 2^32.",
}
NOTES["C67"] = "The trace covers the block functions; the SipHash rounds (straight-line code without arrays) are single events."
NOTES["C69"] = "Holds for the repr(transparent) types; for hmac::Hash<N> the exact condition is C69_hmac_exact and C69_hmac_refuted gives an allowed layout for which the cast is undefined."
NOTES["C80"] = "The exact strings admitted are C80_exact; that admitted strings can be read, that large hmac::Hash types have a right schema and that schema names are unique is refuted by C80_readable_refuted, C80_large_refuted, C80_names_refuted."
NOTES["C82"] = "Holds for the repr(transparent) types; for hmac::Hash<N> the exact condition is C82_hmac_exact and C82_hmac_refuted gives an allowed layout for which the casts are undefined."
NOTES["C84"] = "That the key stays hidden is refuted: the text determines it (C84_hidden_key_refuted, C84_pretty_refuted)."
NOTES["C86"] = "Exact: C86_names, C86_missing (the names missing where it does not resolve), C86_cargo. The README's claim that any combination of features compiles is refuted by C86_any_features_refuted. Resolution of names only, not type checking."
NOTES["C87"] = "That the build compiles is refuted by C87_declared; everything else is about the text with the one undeclared variable read as self. The lost equations are C87_resume_refuted, C87_const_refuted, C87_to_u64_refuted."
NOTES["C89"] = "About declarations and signatures, not bodies; derived functions (clone) are those of C88. Safe code of the user is assumed: the crate has no say over transmutes."
NOTES["C88"] = "About the declarations of traits and impls, not their bodies. Lifetimes, the associated types Output and Value and blanket impls of other crates are left out."
PARTIAL = {}
names = {}
for f in sorted(glob.glob(os.path.join(root, "rocq/theories/Prop*.v"))):
    for m in re.finditer(r"^Theorem ((C\d\d)_\w+)", open(f).read(), re.M):
        names.setdefault(m[2], []).append(m[1])
claims = []
for l in open(os.path.join(root, "properties.jsonl")):
    i = json.loads(l)["id"]
    t = names.get(i, [])
    st = "partial" if (not t or i in PARTIAL) else "proved"
    note = PARTIAL.get(i) or NOTES.get(i) or ("" if t else "Not proved yet.")
    claims.append(dict(property=i, status=st, theorems=t, note=note))
json.dump({"claims": claims}, open(os.path.join(root, "MANIFEST.json"), "w"), indent=1)
print(sum(c["status"] == "proved" for c in claims), "proved of", len(claims))
