(** Generated const implementation of SHA-256 against ModelSha256.v: everything
    but the rounds. *)
From Coq Require Import Arith Lia.
From Verif Require Import Base GenBase ModelEngine ModelSha2Round ModelSha256 GenSha256 GenSha256Const ProofBase ProofGenBase ProofGenSha2.

Section C.
  Context (cfg : config) (Hcfg : wf_config cfg).
  Notation M := (2 ^ usize_bits cfg).

  Lemma wf_M : 65536 <= M.
  Proof. destruct Hcfg as [->|[->| ->]]; vm_compute; discriminate. Qed.
  Lemma uadd_ok a b : a + b < M -> usize_add cfg a b = Ok (a + b).
  Proof. intros H. unfold usize_add, checked_add. apply N.ltb_lt in H. now rewrite H. Qed.
  Lemma umul_ok a b : a * b < M -> usize_mul cfg a b = Ok (a * b).
  Proof. intros H. unfold usize_mul, checked_mul. apply N.ltb_lt in H. now rewrite H. Qed.

  Lemma byte_shl b n : n <= 24 -> N.shiftl (b2n b) n mod 2 ^ 32 = N.shiftl (b2n b) n.
  Proof.
    intros H. apply N.mod_small. rewrite N.shiftl_mul_pow2.
    assert (b2n b < 2 ^ 8) by (destruct b; reflexivity).
    assert (2 ^ n <= 2 ^ 24) by (apply N.pow_le_mono_r; lia).
    change (2 ^ 32) with (2 ^ 8 * 2 ^ 24). nia.
  Qed.

  Lemma read_u32_gen l i : i + 3 < M -> g_sha256_Midstate_read_u32 cfg l i = read_u32 cfg l i.
  Proof.
    intros H. unfold g_sha256_Midstate_read_u32, read_u32.
    rewrite !uadd_ok by lia. cbn [bind]. rewrite N.add_0_r.
    repeat (apply bind_ext; intros ? _). now rewrite !byte_shl by lia.
  Qed.

  Lemma copy_w_loop_gen l idx n : forall i w fuel, (n <= fuel)%nat -> i + N.of_nat n = 16 -> idx + 64 < M + 1 ->
    g_sha256_Midstate_copy_w_loop1 fuel cfg l idx w i
    = let* w' := for_loop n i (fun i w =>
        let* off := usize_add cfg idx (i * 4) in
        let* x := read_u32 cfg l off in
        store w i x) w in Ok (w', 16).
  Proof.
    pose proof wf_M as HM.
    induction n as [|n IH]; intros i w fuel Hf Hi Hidx.
    - assert (i = 16) by lia. subst i. now destruct fuel.
    - destruct fuel as [|fuel]; [lia|]. cbn [g_sha256_Midstate_copy_w_loop1 for_loop].
      destruct (N.ltb_spec i 16); [|lia].
      rewrite umul_ok by lia. cbn [bind]. rewrite uadd_ok by lia. cbn [bind].
      rewrite read_u32_gen by lia. rewrite !bind_bind. apply bind_ext. intros x _. apply bind_ext. intros w' _.
      rewrite uadd_ok by lia. cbn [bind]. apply IH; lia.
  Qed.

  Lemma copy_w_gen l idx : idx + 64 < M + 1 -> g_sha256_Midstate_copy_w cfg l idx = copy_w cfg l idx.
  Proof.
    intros H. unfold g_sha256_Midstate_copy_w, copy_w. cbv zeta.
    rewrite (copy_w_loop_gen l idx 16) by (try lia; reflexivity).
    rewrite bind_bind. cbn [bind]. apply bind_ret.
  Qed.

  Lemma store_len {A} (l : list A) i x l' : store l i x = Ok l' -> length l' = length l.
  Proof.
    unfold store. destruct (i <? len l) eqn:Ei; [|discriminate]. intros E.
    assert (El : l' = firstn (N.to_nat i) l ++ x :: skipn (S (N.to_nat i)) l) by congruence. subst l'.
    apply N.ltb_lt in Ei. unfold len in Ei. rewrite app_length, firstn_length. change (length (x :: ?t)) with (S (length t)).
    rewrite skipn_length. lia.
  Qed.
  Lemma copy_w_loop_len l idx n : forall i w0 w,
    for_loop n i (fun i w =>
        let* off := usize_add cfg idx (i * 4) in
        let* x := read_u32 cfg l off in
        store w i x) w0 = Ok w -> length w = length w0.
  Proof.
    induction n as [|n IH]; intros i w0 w; cbn [for_loop]; [congruence|].
    destruct usize_add; [|discriminate]. cbn [bind]. destruct read_u32; [|discriminate]. cbn [bind].
    destruct (store w0 i a0) as [w1|] eqn:E; [|discriminate]. cbn [bind]. intros H. apply IH in H. rewrite H.
    exact (store_len _ _ _ _ E).
  Qed.
  Lemma copy_w_len l idx w : copy_w cfg l idx = Ok w -> length w = 16%nat.
  Proof. exact (copy_w_loop_len l idx 16 0 (array 0 16) w). Qed.

  Lemma loop2_gen_fast l off : forall fuel i buf,
    g_sha256_Midstate_const_hash_fast_loop2 fuel cfg l off buf i = fill_buf fuel cfg l off i buf.
  Proof.
    induction fuel as [|fuel IH]; intros i buf; cbn [g_sha256_Midstate_const_hash_fast_loop2 fill_buf].
    - reflexivity.
    - destruct (usize_add cfg off i) as [j|]; [|reflexivity]. cbn [bind]. destruct (j <? len l); [|reflexivity].
      repeat (apply bind_ext; intros ? _). apply IH.
  Qed.
  Lemma loop2_gen_small l off : forall fuel i buf,
    g_sha256_Midstate_const_hash_small_loop2 fuel cfg l off buf i = fill_buf fuel cfg l off i buf.
  Proof.
    induction fuel as [|fuel IH]; intros i buf; cbn [g_sha256_Midstate_const_hash_small_loop2 fill_buf].
    - reflexivity.
    - destruct (usize_add cfg off i) as [j|]; [|reflexivity]. cbn [bind]. destruct (j <? len l); [|reflexivity].
      repeat (apply bind_ext; intros ? _). apply IH.
  Qed.

  (** The text of the loop over the chunks before the rounds. *)
  Lemma const_prefix (L2 : nat -> config -> bytes -> N -> bytes -> N -> res (bytes * N)) l fin num state chunk
      (K : list N -> res (list N * N)) :
    (forall fuel off i buf, L2 fuel cfg l off buf i = fill_buf fuel cfg l off i buf) ->
    chunk < num -> num * 64 < M ->
    (let* t3 := (
        if negb fin then
          let* t3 := usize_add cfg chunk 1 in
          Ok (t3 =? num)
        else
          Ok false) in
      if t3 then
        Ok (state, chunk)
      else
        let* t4 := usize_mul cfg chunk 64 in
        let* t5 := usize_add cfg t4 64 in
        let* v_w := (
          if t5 <=? (len l) then
            let* t6 := usize_mul cfg chunk 64 in
            g_sha256_Midstate_copy_w cfg l t6
          else
            let v_buf := array x00 64 in
            let v_i := 0 in
            let* v_offset := usize_mul cfg chunk 64 in
            let* (v_buf, v_i) := L2 (length l) cfg l v_offset v_buf v_i in
            let* t7 := (
              if ((len l) mod 64) <=? 55 then
                Ok true
              else
                let* t7 := usize_add cfg chunk 2 in
                Ok (t7 =? num)) in
            let* v_buf := (
              if t7 then
                let* t8 := store v_buf v_i x80 in
                let v_buf := t8 in
                Ok v_buf
              else
                Ok v_buf) in
            let* t8 := usize_add cfg chunk 1 in
            let* v_buf := (
              if t8 =? num then
                let* v_bit_len := checked_mul cfg 64 (len l) 8 in
                let* t10 := store v_buf 56 (u8 (N.land (N.shiftr v_bit_len 56) 255)) in
                let v_buf := t10 in
                let* t11 := store v_buf 57 (u8 (N.land (N.shiftr v_bit_len 48) 255)) in
                let v_buf := t11 in
                let* t12 := store v_buf 58 (u8 (N.land (N.shiftr v_bit_len 40) 255)) in
                let v_buf := t12 in
                let* t13 := store v_buf 59 (u8 (N.land (N.shiftr v_bit_len 32) 255)) in
                let v_buf := t13 in
                let* t14 := store v_buf 60 (u8 (N.land (N.shiftr v_bit_len 24) 255)) in
                let v_buf := t14 in
                let* t15 := store v_buf 61 (u8 (N.land (N.shiftr v_bit_len 16) 255)) in
                let v_buf := t15 in
                let* t16 := store v_buf 62 (u8 (N.land (N.shiftr v_bit_len 8) 255)) in
                let v_buf := t16 in
                let* t17 := store v_buf 63 (u8 (N.land (N.shiftr v_bit_len 0) 255)) in
                let v_buf := t17 in
                Ok v_buf
              else
                Ok v_buf) in
            g_sha256_Midstate_copy_w cfg v_buf 0) in
        K v_w)
    = if negb fin && (chunk + 1 =? num) then Ok (state, chunk)
      else let* w := const_chunk cfg l num chunk in K w.
  Proof.
    intros HL Hc Hn. pose proof wf_M as HM. unfold const_chunk.
    rewrite !(umul_ok chunk 64), !(uadd_ok chunk 1), !(uadd_ok chunk 2) by lia. cbn [bind]. cbv zeta.
    rewrite (uadd_ok (chunk * 64) 64) by lia. cbn [bind]. rewrite !HL.
    assert (E : (let* t3 := (if negb fin then Ok (chunk + 1 =? num) else Ok false) in Ok t3)
                = Ok (negb fin && (chunk + 1 =? num))) by now destruct fin.
    rewrite bind_ret in E. rewrite E. cbn [bind]. destruct (negb fin && (chunk + 1 =? num)); [reflexivity|].
    match goal with |- bind ?x _ = bind ?y _ => assert (Ex : x = y) end; [|now rewrite Ex].
    destruct (chunk * 64 + 64 <=? len l).
    { apply copy_w_gen. lia. }
    apply bind_ext. intros [buf i] _.
    assert (E2 : (if len l mod 64 <=? 55 then Ok true else Ok (chunk + 2 =? num))
                 = Ok ((len l mod 64 <=? 55) || (chunk + 2 =? num))) by now destruct (_ <=? 55).
    rewrite E2. cbn [bind]. change (64 - 9) with 55.
    destruct ((len l mod 64 <=? 55) || (chunk + 2 =? num)); rewrite ?bind_ret.
    - apply bind_ext. intros buf1 _. destruct (chunk + 1 =? num); cbn [bind].
      + rewrite bind_bind. rewrite bind_bind. apply bind_ext. intros bl _. cbn [for_loop].
        rewrite !bind_bind. apply bind_ext. intros ? _.
        do 7 (rewrite !bind_bind; apply bind_ext; intros ? _). apply copy_w_gen. lia.
      + apply copy_w_gen. lia.
    - cbn [bind]. destruct (chunk + 1 =? num); cbn [bind].
      + rewrite bind_bind. rewrite bind_bind. apply bind_ext. intros bl _. cbn [for_loop].
        rewrite !bind_bind. apply bind_ext. intros ? _.
        do 7 (rewrite !bind_bind; apply bind_ext; intros ? _). apply copy_w_gen. lia.
      + apply copy_w_gen. lia.
  Qed.
End C.
