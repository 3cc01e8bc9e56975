(** Vocabulary for the theorems on the traced text (Trace*.v): which engine is run,
    what is done with it, and what of that is public. *)
From Verif Require Import Base SpecMD ModelEngine ModelHmac ModelSip ModelAll ModelStore SpecStore SpecMore SpecGen
  GenLib GenSip GenHmac GenSha256t GenBase
  TraceBase TraceLib TraceSip TraceSha1 TraceSha256 TraceSha512 TraceSha384 TraceRipemd TraceHmac TraceSha256t.

(** The engine types.  A tag is a constant of its type (src/sha256t.rs:46-75), so its
    engine is taken as it is. *)
Definition trace_engine (c : config) (a : algo) : tengine (gen_engine c a) :=
  match a return tengine (gen_engine c a) with
  | Sha1 => t_sha1_Engine_dict c
  | Sha256 => t_sha256_Engine_dict c
  | Sha384 => t_sha384_Engine_dict c
  | Sha512 => t_sha512_Engine_dict c
  | Sha512_256 => t_sha512_256_Engine_dict c
  | Ripemd160 => t_ripemd160_Engine_dict c
  end.
Fixpoint trace_kind (c : config) (k : ekind) : tengine (gen_kind c k) :=
  match k return tengine (gen_kind c k) with
  | KAlgo a => trace_engine c a
  | KSip => t_siphash24_Engine_dict c
  | KTag tag => t_sha256t_Engine_dict c (tlift (gen_tag_engine c tag))
  | KHmac k => t_hmac_Engine_dict c (trace_kind c k)
  end.

(** What is done with an engine: feed it, take its midstate, or go on with a new
    engine made of its midstate and a length. *)
Inductive act : Set := Feed (d : bytes) | Peek | Resume (n : N).

Fixpoint trace_acts {E} (L : tengine E) (s : he_state E) (l : list act) : tm (he_state E) :=
  match l with
  | [] => tret s
  | Feed d :: l => let! s := te_input L s d in trace_acts L s l
  | Peek :: l => let! _ := te_midstate L s in trace_acts L s l
  | Resume n :: l =>
      let! m := te_midstate L s in
      let! s := te_from_midstate L m n in
      trace_acts L s l
  end.
Fixpoint gen_acts (E : HashEngine) (s : he_state E) (l : list act) : res (he_state E) :=
  match l with
  | [] => Ok s
  | Feed d :: l => let* s := he_input E s d in gen_acts E s l
  | Peek :: l => let* _ := he_midstate E s in gen_acts E s l
  | Resume n :: l =>
      let* m := he_midstate E s in
      let* s := he_from_midstate E m n in
      gen_acts E s l
  end.

(** Construct an engine, use it, finalize it. *)
Definition trace_start (c : config) (o : origin) : tm (he_state (gen_kind c (origin_kind o))) :=
  match o return tm (he_state (gen_kind c (origin_kind o))) with
  | FromNew k => te_default (trace_kind c k)
  | FromKey k key => t_hmac_Engine_new c (trace_kind c k) key
  | FromKeys k0 k1 => t_siphash24_Engine_with_keys k0 k1
  end.
Definition gen_start (c : config) (o : origin) : res (he_state (gen_kind c (origin_kind o))) :=
  match o return res (he_state (gen_kind c (origin_kind o))) with
  | FromNew k => he_default (gen_kind c k)
  | FromKey k key => g_hmac_Engine_new c (gen_kind c k) key
  | FromKeys k0 k1 => Ok (g_siphash24_Engine_with_keys k0 k1)
  end.
Definition trace_run (c : config) (o : origin) (l : list act) : tm bytes :=
  let! s := trace_start c o in
  let! s := trace_acts (trace_kind c (origin_kind o)) s l in
  te_finalize (trace_kind c (origin_kind o)) s.
Definition gen_run (c : config) (o : origin) (l : list act) : res bytes :=
  let* s := gen_start c o in
  let* s := gen_acts (gen_kind c (origin_kind o)) s l in
  he_finalize (gen_kind c (origin_kind o)) s.
Definition events {A} (x : tm A) : list event := fst x.
Definition result {A} (x : tm A) : res A := snd x.

(** What is done is public, and so are the lengths; the bytes are not. *)
Definition same_act (x y : act) : Prop :=
  match x, y with
  | Feed d, Feed d' => length d = length d'
  | Peek, Peek => True
  | Resume n, Resume n' => n = n'
  | _, _ => False
  end.

(** The traced block function of each algorithm *)
Definition trace_block (c : config) (a : algo) : engine -> tm engine :=
  match a with
  | Sha1 => t_sha1_Engine_process_block c
  | Sha256 => t_sha256_Engine_process_block c
  | Sha384 | Sha512 | Sha512_256 => t_sha512_Engine_process_block c
  | Ripemd160 => t_ripemd160_Engine_process_block c
  end.
