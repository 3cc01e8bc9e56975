(** What the block functions reveal (C67). *)
From Coq Require Import Lia.
From Verif Require Import Base SpecBase SpecMD ModelEngine ModelSha2Round TablesSha2 ModelSimd TablesSimd
  ModelSha256 ModelSha512 ModelSha1 ModelRipemdRound TablesRipemd ModelRipemd ModelAll ModelStore
  ModelLeak SpecLeak ProofBase ProofMD ProofApi ProofHmac.
Open Scope N_scope.

(** ** Erasure *)

Lemma erase_bind A B (x : lk A) (f : A -> lk B) : snd (lbind x f) = bind (snd x) (fun a => snd (f a)).
Proof. destruct x as [l []]; reflexivity. Qed.

Lemma bind_ext A B (x : res A) (f g : A -> res B) : (forall a, f a = g a) -> bind x f = bind x g.
Proof. intros H. destruct x; cbn [bind]; auto. Qed.

Lemma erase_debug c b : snd (l_debug_assert c b) = debug_assert c b.
Proof. unfold l_debug_assert, debug_assert. destruct (debug_assertions c); [|reflexivity]. rewrite erase_bind. reflexivity. Qed.


Lemma erase_tells l A (f : unit -> lk A) : snd (lbind (tells l) f) = snd (f tt).
Proof. reflexivity. Qed.

Lemma erase_zip_words k conv dst : forall i src, snd (l_zip_words i k dst src conv) = zip_assign dst src conv.
Proof.
  induction dst as [|d dst IH]; intros i [|s src]; try reflexivity. cbn [l_zip_words zip_assign].
  rewrite erase_bind. cbn [branch snd bind]. rewrite erase_bind. cbn [tell snd bind].
  rewrite erase_bind. cbn [llift snd]. apply bind_ext. intros v.
  rewrite erase_bind. cbn [tell snd bind]. rewrite erase_bind, IH. reflexivity.
Qed.

Lemma erase_rows c F rows : forall s, snd (l_run_rows c F rows s) = Ok (run_rows c F rows s).
Proof. induction rows as [|r rows IH]; intros s; [reflexivity|]. cbn [l_run_rows]. rewrite erase_tells. apply IH. Qed.

Lemma erase_program mask p : forall s, snd (l_run_program mask p s) = run_program mask p s.
Proof.
  induction p as [|i p IH]; intros s; [reflexivity|]. cbn [l_run_program run_program]. rewrite erase_tells.
  rewrite erase_bind. cbn [llift snd]. apply bind_ext. exact IH.
Qed.

Lemma erase_for S n (body : N -> S -> lk S) body' : (forall i s, snd (body i s) = body' i s) ->
  forall start s, snd (l_for_loop n start body s) = for_loop n start body' s.
Proof.
  intros H. induction n as [|n IH]; intros start s; [reflexivity|]. cbn [l_for_loop for_loop].
  rewrite erase_bind. cbn [branch snd bind]. rewrite erase_bind, H. apply bind_ext. intros s'. apply IH.
Qed.

Lemma erase_expand w : snd (l_sha1_expand w) = sha1_expand w.
Proof.
  unfold l_sha1_expand, sha1_expand. apply erase_for. intros i s.
  do 4 (rewrite erase_bind; apply bind_ext; intros). rewrite erase_bind. reflexivity.
Qed.

Lemma erase_f_k i b c d : snd (l_sha1_f_k i b c d) = sha1_f_k i b c d.
Proof.
  unfold l_sha1_f_k, sha1_f_k.
  repeat (rewrite erase_bind; cbn [branch snd bind]; match goal with |- context [if ?q then _ else _] => destruct q end;
    [reflexivity|]). reflexivity.
Qed.

Lemma erase_rounds ws : forall i s, snd (l_sha1_rounds i ws s) = sha1_rounds i ws s.
Proof.
  induction ws as [|w ws IH]; intros i [[[[a b] c] d] e]; [reflexivity|]. cbn [l_sha1_rounds sha1_rounds].
  rewrite erase_bind. cbn [branch snd bind]. rewrite erase_bind. cbn [tell snd bind].
  rewrite erase_bind, erase_f_k. apply bind_ext. intros [f k]. apply IH.
Qed.

Lemma erase_line c A fn k data rows : forall v, snd (l_run_line c A fn k data rows v) = Ok (run_line c fn k data rows v).
Proof. induction rows as [|r rows IH]; intros v; [reflexivity|]. cbn [l_run_line]. rewrite erase_tells. apply IH. Qed.

Lemma erase_sha1_block c e : snd (l_sha1_block c e) = sha1_process_block c e.
Proof.
  unfold l_sha1_block, sha1_process_block. rewrite erase_bind, erase_debug. apply bind_ext. intros _.
  rewrite erase_bind, erase_zip_words. apply bind_ext. intros w.
  rewrite erase_bind, erase_expand. apply bind_ext. clear w. intros w.
  do 5 (rewrite erase_bind; apply bind_ext; intros). rewrite erase_bind, erase_rounds. apply bind_ext.
  intros [[[[? ?] ?] ?] ?]. reflexivity.
Qed.

Lemma erase_software c e : snd (l_software_block c e) = software_process_block c e.
Proof.
  unfold l_software_block, software_process_block. rewrite erase_bind, erase_debug. apply bind_ext. intros _.
  rewrite erase_bind, erase_zip_words. apply bind_ext. intros w. rewrite erase_tells, erase_bind, erase_rows.
  cbn [bind]. destruct (run_rows _ _ _ _). reflexivity.
Qed.

Lemma erase_sha512_block c e : snd (l_sha512_block c e) = sha512_process_block c e.
Proof.
  unfold l_sha512_block, sha512_process_block. rewrite erase_bind, erase_debug. apply bind_ext. intros _.
  rewrite erase_bind, erase_zip_words. apply bind_ext. intros w. rewrite erase_tells, erase_bind, erase_rows.
  cbn [bind]. destruct (run_rows _ _ _ _). reflexivity.
Qed.

Lemma erase_ripemd_block c e : snd (l_ripemd_block c e) = ripemd_process_block c e.
Proof.
  unfold l_ripemd_block, ripemd_process_block. rewrite erase_bind, erase_debug. apply bind_ext. intros _.
  rewrite erase_bind, erase_zip_words. apply bind_ext. intros w. rewrite !erase_tells.
  rewrite erase_bind, erase_line. cbn [bind]. rewrite erase_bind, erase_line. reflexivity.
Qed.

Lemma erase_sha256_block c e : snd (l_sha256_block c e) = sha256_process_block c e.
Proof.
  unfold l_sha256_block, sha256_process_block. rewrite erase_bind. cbn [branch snd bind]. destruct (sha_ni c).
  - unfold l_simd_block, simd_process_block. rewrite erase_bind, erase_program. reflexivity.
  - apply erase_software.
Qed.

Lemma erase_body c a e : snd (l_block_body c a e) = block_fn c a e.
Proof.
  destruct a; cbn [l_block_body block_fn];
    auto using erase_sha1_block, erase_sha256_block, erase_sha512_block, erase_ripemd_block.
Qed.

Lemma erase_block c a e : snd (l_block c a e) = block_fn c a e.
Proof. unfold l_block. rewrite erase_bind. cbn [tell snd bind]. apply erase_body. Qed.

Lemma erase_zip_copy k vals : forall i ret, snd (l_zip_copy i vals k ret) = zip_copy vals k ret.
Proof.
  induction vals as [|v vals IH]; intros i ret; [reflexivity|]. cbn [l_zip_copy zip_copy].
  rewrite erase_bind. cbn [branch snd bind]. destruct (Nat.ltb _ _); [reflexivity|].
  rewrite erase_bind. cbn [tell snd bind]. rewrite erase_bind. apply bind_ext. intros c.
  rewrite erase_bind. cbn [tell snd bind]. rewrite erase_bind, IH. reflexivity.
Qed.

Lemma erase_midstate a e : snd (l_midstate a e) = algo_midstate a e.
Proof. destruct a; exact (erase_zip_copy _ _ _ _). Qed.

(** ** Two successful runs reveal the same *)

Definition agree {A} (m m' : lk A) : Prop :=
  forall a a', snd m = Ok a -> snd m' = Ok a' -> fst m = fst m'.

Lemma ag_same A (m m' : lk A) : fst m = fst m' -> agree m m'.
Proof. intros H a a' _ _. exact H. Qed.
Lemma ag_bind A B (m m' : lk A) (f f' : A -> lk B) : agree m m' ->
  (forall a a', snd m = Ok a -> snd m' = Ok a' -> agree (f a) (f' a')) -> agree (lbind m f) (lbind m' f').
Proof.
  destruct m as [t [a|p]], m' as [t' [a'|p']]; unfold agree; cbn [lbind fst snd]; intros H1 H2 b b' E E'; try discriminate.
  rewrite (H1 a a' eq_refl eq_refl). f_equal. exact (H2 a a' eq_refl eq_refl b b' E E').
Qed.
Lemma ag_seq A B (m m' : lk A) (f f' : A -> lk B) : fst m = fst m' ->
  (forall a a', agree (f a) (f' a')) -> agree (lbind m f) (lbind m' f').
Proof. intros H1 H2. apply ag_bind; [now apply ag_same|auto]. Qed.

Lemma ag_debug c b b' : agree (l_debug_assert c b) (l_debug_assert c b').
Proof.
  unfold agree, l_debug_assert. destruct (debug_assertions c); [|reflexivity].
  destruct b, b'; cbn; intros; congruence.
Qed.

Lemma ag_zip_words k conv dst : forall i src dst' src', length dst = length dst' -> length src = length src' ->
  agree (l_zip_words i k dst src conv) (l_zip_words i k dst' src' conv).
Proof.
  induction dst as [|d dst IH]; intros i [|s src] [|d' dst'] [|s' src'] Hd Hs; try discriminate; try (now apply ag_same).
  cbn [l_zip_words]. do 4 (apply ag_seq; [reflexivity|intros ? ?]).
  apply ag_bind; [apply IH; [now injection Hd|now injection Hs]|]. intros. now apply ag_same.
Qed.

Lemma ag_rows c F rows : forall s s', agree (l_run_rows c F rows s) (l_run_rows c F rows s').
Proof.
  induction rows as [|r rows IH]; intros s s'; [now apply ag_same|]. cbn [l_run_rows].
  apply ag_seq; [reflexivity|]. intros _ _. apply IH.
Qed.

Lemma ag_program mask p : forall s s', agree (l_run_program mask p s) (l_run_program mask p s').
Proof.
  induction p as [|i p IH]; intros s s'; [now apply ag_same|]. cbn [l_run_program].
  apply ag_seq; [reflexivity|]. intros _ _. apply ag_seq; [reflexivity|]. exact IH.
Qed.

Lemma ag_line c A fn k data data' rows : forall v v',
  agree (l_run_line c A fn k data rows v) (l_run_line c A fn k data' rows v').
Proof.
  induction rows as [|r rows IH]; intros v v'; [now apply ag_same|]. cbn [l_run_line].
  apply ag_seq; [reflexivity|]. intros _ _. apply IH.
Qed.

Lemma ag_index a l l' i : agree (l_index a l i) (l_index a l' i).
Proof. apply ag_seq; [reflexivity|]. intros _ _. now apply ag_same. Qed.

Lemma ag_for S n (body : N -> S -> lk S) : (forall i s s', agree (body i s) (body i s')) ->
  forall start s s', agree (l_for_loop n start body s) (l_for_loop n start body s').
Proof.
  intros H. induction n as [|n IH]; intros start s s'; [now apply ag_same|]. cbn [l_for_loop].
  apply ag_seq; [reflexivity|]. intros _ _. apply ag_bind; [apply H|]. auto.
Qed.

Lemma ag_expand w w' : agree (l_sha1_expand w) (l_sha1_expand w').
Proof.
  apply ag_for. intros i s s'.
  do 4 (apply ag_bind; [apply ag_index|intros ? ? _ _]). apply ag_seq; [reflexivity|]. intros _ _. now apply ag_same.
Qed.

Lemma ag_f_k i b c d b' c' d' : agree (l_sha1_f_k i b c d) (l_sha1_f_k i b' c' d').
Proof.
  apply ag_same. unfold l_sha1_f_k.
  destruct (i <=? 19); [reflexivity|]. destruct (i <=? 39); [reflexivity|]. destruct (i <=? 59); [reflexivity|].
  destruct (i <=? 79); reflexivity.
Qed.

Lemma ag_rounds ws : forall i ws' s s', length ws = length ws' -> agree (l_sha1_rounds i ws s) (l_sha1_rounds i ws' s').
Proof.
  induction ws as [|w ws IH]; intros i [|w' ws'] [[[[a b] c] d] e] [[[[a' b'] c'] d'] e'] H; try discriminate;
    [now apply ag_same|].
  cbn [l_sha1_rounds]. do 2 (apply ag_seq; [reflexivity|intros _ _]).
  apply ag_bind; [apply ag_f_k|]. intros [f k] [f' k'] _ _. apply IH. now injection H.
Qed.

Lemma zip_assign_len A B (conv : B -> res A) dst : forall src r, zip_assign dst src conv = Ok r -> length r = length dst.
Proof.
  induction dst as [|d dst IH]; intros [|s src] r; cbn [zip_assign]; try (now intros [= <-]).
  destruct (conv s); cbn [bind]; [|discriminate]. destruct (zip_assign dst src conv) as [l|] eqn:E; [|discriminate].
  cbn [bind]. intros [= <-]. cbn [length]. now rewrite (IH _ _ E).
Qed.

Lemma store_length A (l l' : list A) i x : store l i x = Ok l' -> length l' = length l.
Proof.
  unfold store. destruct (N.ltb_spec i (len l)) as [H|]; [|discriminate]. intros E. apply Ok_inj in E. subst l'.
  unfold len in H. rewrite app_length, firstn_length. cbn [length]. rewrite skipn_length. lia.
Qed.

Lemma for_loop_len A n (body : N -> list A -> res (list A)) :
  (forall i s s', body i s = Ok s' -> length s' = length s) ->
  forall start s s', for_loop n start body s = Ok s' -> length s' = length s.
Proof.
  intros H. induction n as [|n IH]; intros start s s'; cbn [for_loop]; [now intros [= <-]|].
  destruct (body start s) as [t|] eqn:E; cbn [bind]; [|discriminate]. intros E'.
  rewrite (IH _ _ _ E'). exact (H _ _ _ E).
Qed.

Lemma expand_len w w' : sha1_expand w = Ok w' -> length w' = length w.
Proof.
  apply for_loop_len. intros i s s'.
  do 4 (destruct (index _ _); cbn [bind]; [|discriminate]). apply store_length.
Qed.

Lemma chunks_len k (x y : bytes) : length x = length y -> length (chunks_exact k x) = length (chunks_exact k y).
Proof.
  intros H. unfold chunks_exact.
  assert (G : forall fuel (x y : bytes), length x = length y ->
    length (chunks_exact_fuel fuel k x) = length (chunks_exact_fuel fuel k y)); [|rewrite <- H; now apply G].
  clear x y H.
  induction fuel as [|f IH]; intros x y H; [reflexivity|]. cbn [chunks_exact_fuel]. rewrite <- H.
  destruct (Nat.ltb _ _); [reflexivity|]. cbn [length]. f_equal. apply IH. rewrite !skipn_length. congruence.
Qed.

Lemma ag_body c a e e' : length (e_buffer e) = length (e_buffer e') ->
  agree (l_block_body c a e) (l_block_body c a e').
Proof.
  intros H.
  assert (SW : agree (l_software_block c e) (l_software_block c e')).
  { unfold l_software_block. apply ag_bind; [apply ag_debug|intros _ _ _ _].
    apply ag_bind; [apply ag_zip_words; [reflexivity|now apply chunks_len]|intros w w' _ _].
    apply ag_seq; [reflexivity|intros _ _]. apply ag_bind; [apply ag_rows|intros [v ?] [v' ?] _ _].
    now apply ag_same. }
  assert (S512 : agree (l_sha512_block c e) (l_sha512_block c e')).
  { unfold l_sha512_block. apply ag_bind; [apply ag_debug|intros _ _ _ _].
    apply ag_bind; [apply ag_zip_words; [reflexivity|now apply chunks_len]|intros w w' _ _].
    apply ag_seq; [reflexivity|intros _ _]. apply ag_bind; [apply ag_rows|intros [v ?] [v' ?] _ _].
    now apply ag_same. }
  destruct a; cbn [l_block_body]; auto.
  - unfold l_sha1_block. apply ag_bind; [apply ag_debug|intros _ _ _ _].
    apply ag_bind; [apply ag_zip_words; [reflexivity|now apply chunks_len]|intros w w' Ew Ew'].
    apply ag_bind; [apply ag_expand|intros x x' Ex Ex'].
    do 5 (apply ag_bind; [apply ag_index|intros ? ? _ _]).
    apply ag_bind; [apply ag_rounds|intros [[[[? ?] ?] ?] ?] [[[[? ?] ?] ?] ?] _ _; now apply ag_same].
    rewrite erase_expand in Ex, Ex'. rewrite (expand_len _ _ Ex), (expand_len _ _ Ex').
    rewrite erase_zip_words in Ew, Ew'. now rewrite (zip_assign_len _ _ _ _ _ _ Ew), (zip_assign_len _ _ _ _ _ _ Ew').
  - unfold l_sha256_block. cbn [branch lbind]. destruct (sha_ni c); unfold agree; cbn [fst snd]; [|].
    + intros x x' E E'. f_equal. revert x x' E E'.
      apply ag_bind; [apply ag_program|]. intros. now apply ag_same.
    + intros x x' E E'. f_equal. exact (SW x x' E E').
  - unfold l_ripemd_block. apply ag_bind; [apply ag_debug|intros _ _ _ _].
    apply ag_bind; [apply ag_zip_words; [reflexivity|now apply chunks_len]|intros w w' _ _].
    do 2 (apply ag_seq; [reflexivity|intros _ _]).
    do 2 (apply ag_bind; [apply ag_line|intros ? ? _ _]). now apply ag_same.
Qed.

(** The body of process_block reveals nothing but which function it is. *)
Lemma block_reveals c a e e' :
  length (e_buffer e) = md_block (md_of a) -> good_h (md_of a) (e_h e) ->
  length (e_buffer e') = md_block (md_of a) -> good_h (md_of a) (e_h e') ->
  revealed (l_block c a e) = revealed (l_block c a e').
Proof.
  intros Hb Hh Hb' Hh'. unfold revealed, l_block. cbn [tell lbind fst snd]. f_equal.
  refine (ag_body c a e e' _ _ _ _ _); [congruence| |]; rewrite erase_body; now apply block_fn_ok.
Qed.

Lemma ag_zip_copy k vals : forall i vals' ret ret', length vals = length vals' -> length ret = length ret' ->
  agree (l_zip_copy i vals k ret) (l_zip_copy i vals' k ret').
Proof.
  induction vals as [|v vals IH]; intros i [|v' vals'] ret ret' Hv Hr; try discriminate; [now apply ag_same|].
  cbn [l_zip_copy]. rewrite <- Hr. apply ag_bind; [now apply ag_same|]. cbn [branch snd].
  intros q q' [= <-] [= <-]. destruct (Nat.ltb _ _); [now apply ag_same|].
  apply ag_seq; [reflexivity|intros _ _]. apply ag_seq; [reflexivity|intros d d'].
  apply ag_seq; [reflexivity|intros _ _]. apply ag_bind; [apply IH; [now injection Hv|rewrite !skipn_length; congruence]|].
  intros. now apply ag_same.
Qed.

Lemma ag_midstate a e e' : length (e_h e) = length (e_h e') -> agree (l_midstate a e) (l_midstate a e').
Proof. intros H. destruct a; apply ag_zip_copy; rewrite ?map_length; auto. Qed.

Lemma block_len_reveals c a e e' :
  length (e_buffer e) = block_len a -> good_h (md_of a) (e_h e) ->
  length (e_buffer e') = block_len a -> good_h (md_of a) (e_h e') ->
  revealed (l_block c a e) = revealed (l_block c a e').
Proof. intros H1 H2 H3 H4. apply block_reveals; auto; destruct a; assumption. Qed.
