(** Packing, comparison, bit access, masks, negation and constants. *)
From Coq Require Import ZArith List String Lia Bool.
From Verif Require Import Lang Poly Kernel Fields Kfacts Ops Words Codec Normalize.
From Verif Require Src_e221_3.
Import ListNotations.
Local Open Scope string_scope.
Local Open Scope Z_scope.

(** ** Bytes of a residue *)
Lemma le_bytes_len n z : List.length (le_bytes n z) = n.
Proof. revert z. induction n; simpl; auto. Qed.
Lemma le_bytes_bytes n z : is_bytes (le_bytes n z).
Proof. revert z. induction n; intros z; simpl; constructor; auto. apply Z.mod_pos_bound; lia. apply IHn. Qed.
Lemma le_bytes_value n z : 0 <= z < 256 ^ Z.of_nat n -> le_value (le_bytes n z) = z.
Proof.
  revert z. induction n as [|n IH]; intros z H.
  - simpl in *. unfold le_value. simpl. lia.
  - rewrite Nat2Z.inj_succ, Z.pow_succ_r in H by lia. unfold le_value in *. cbn [le_bytes words_value].
    change (2 ^ 8) with 256. rewrite IH.
    + pose proof (Z.div_mod z 256 ltac:(lia)). lia.
    + split; [apply Z.div_pos; lia|apply Z.div_lt_upper_bound; lia].
Qed.
Lemma le_bytes_unique bs : is_bytes bs -> bs = le_bytes (List.length bs) (le_value bs).
Proof.
  induction 1 as [|x bs Hx Hbs IH]; auto. cbn [List.length le_bytes]. unfold le_value in *. cbn [words_value].
  change (2 ^ 8) with 256. rewrite (Z.mul_comm 256), Z.mod_add, Z.mod_small, Z.div_add, Z.div_small by lia.
  rewrite Z.add_0_l, <- IH. reflexivity.
Qed.
Lemma le_value_inj bs bs' : is_bytes bs -> is_bytes bs' -> List.length bs = List.length bs' -> le_value bs = le_value bs' -> bs = bs'.
Proof. intros H H' L E. rewrite (le_bytes_unique bs), (le_bytes_unique bs'), L, E; auto. Qed.

Lemma residue_fits F z : In F all_fields -> 0 <= z mod modulus F < 256 ^ Z.of_nat (fl_nb F).
Proof.
  intros H. pose proof (modulus_pos F H) as (MP & _).
  pose proof (Z.mod_pos_bound z (modulus F) MP).
  destruct (layout_facts F H) as (_ & _ & _ & C & _ & N & _). pose proof (nbits_pos F H).
  assert (modulus F < 256 ^ Z.of_nat (fl_nb F)); [|lia].
  change 256 with (2 ^ 8). rewrite <- Z.pow_mul_r by lia. unfold modulus.
  assert (2 ^ nbits F <= 2 ^ (8 * Z.of_nat (fl_nb F))) by (apply Z.pow_le_mono_r; lia). lia.
Qed.
Lemma encode_value F z : In F all_fields -> le_value (encode F z) = z mod modulus F.
Proof. intros H. apply le_bytes_value, residue_fits; auto. Qed.
Lemma encode_len F z : List.length (encode F z) = fl_nb F.
Proof. apply le_bytes_len. Qed.
Lemma encode_bytes F z : is_bytes (encode F z).
Proof. apply le_bytes_bytes. Qed.
Lemma encode_eq F z z' : In F all_fields -> encode F z = encode F z' <-> eqmod F z z'.
Proof.
  intros H. split; intros E.
  - unfold eqmod. rewrite <- !encode_value by auto. congruence.
  - unfold encode. rewrite E. reflexivity.
Qed.

Lemma loose_normal F a : In F all_fields -> loose F a -> normal F a.
Proof. intros H R. split; [apply loose_any; auto|]. eapply nonneg_folded; eauto. lia. Qed.
Lemma tight_normal F a : In F all_fields -> tight F a -> normal F a.
Proof. intros H R. apply loose_normal, tight_loose; auto. Qed.
Lemma canonical_normal F a : In F all_fields -> canonical F a -> normal F a.
Proof. intros H [R _]. apply tight_normal; auto. Qed.
Definition canon (F : fld) (a : list Z) : list Z := to_words F (value F a mod modulus F).
Lemma normalize_normal F a : In F all_fields -> normal F a -> runsd 4 F "F::normalize" [VArr a] [] [VArr (canon F a)].
Proof. intros H [A N]. apply normalize_ok; auto. Qed.
Lemma canon_canonical F a : In F all_fields -> canonical F (canon F a).
Proof. intros. apply norm_canonical; auto. Qed.
Lemma canon_value F a : In F all_fields -> value F (canon F a) = value F a mod modulus F.
Proof. intros. apply to_words_value; auto. Qed.
Lemma canon_id F a : In F all_fields -> canonical F a -> canon F a = a.
Proof. intros H C. unfold canon. rewrite canonical_mod by auto. destruct C as [T _]. symmetry. eapply rep_unique; eauto. Qed.
Lemma canon_eq F a b : In F all_fields -> canon F a = canon F b <-> eqmod F (value F a) (value F b).
Proof.
  intros H. split; intros E.
  - unfold eqmod. rewrite <- !canon_value by auto. congruence.
  - unfold canon. rewrite E. reflexivity.
Qed.

(** ** pack, packed, unpacked *)
Lemma same_pack : same "F::pack" Src_e221_3.f_pack. Proof. same_tac. Qed.
Lemma pack_runs F a bs : In F all_fields -> normal F a -> is_bytes bs -> (fl_nb F <= List.length bs)%nat ->
  runsd 5 F "F::pack" [VArr a; VArr bs] [] [VArr (canon F a); VArr (encode F (value F a) ++ skipn (fl_nb F) bs)%list].
Proof.
  intros H N Bs L. pose proof (normalize_normal F a H N) as R1.
  destruct (canon_canonical F a H) as [T _].
  destruct (pack_normalized_ok F (canon F a) bs H T Bs L) as (ws & R2 & W1 & W2 & W3).
  assert (E : ws = encode F (value F a)).
  { rewrite (le_bytes_unique ws), W2, W3, canon_value by auto. reflexivity. }
  subst ws. apply (call_step _ _ _ _ _ _ _ (same_pack F H)). intros md fuel Hf.
  unfold Src_e221_3.f_pack. evm. callee R1. callee R2. reflexivity.
Qed.
Lemma pack_short F a bs : In F all_fields -> any_rep F a -> is_bytes bs -> (List.length bs < fl_nb F)%nat ->
  panicsd 5 F "F::pack" [VArr a; VArr bs].
Proof.
  intros H N Bs L. destruct (normalize_runs F a H N) as (o & R1 & Ro & _).
  assert (Ao : any_rep F o).
  { pose proof (small_tops_ok F H). pose proof (B_pos F H). eapply rep_weaken; [exact Ro|lia|lia]. }
  pose proof (pack_normalized_short F o bs H Ao Bs L) as R2.
  apply (panic_step _ _ _ _ _ (same_pack F H)). intros md fuel Hf.
  unfold Src_e221_3.f_pack. evm. callee R1. callee R2. reflexivity.
Qed.

Definition b_packed (F : fld) : func :=
  mkfunc ["self"] [SLet "out" (ERep (EInt 0) (fl_nb F)); SCall [] "F::pack" [AMut "self"; AMut "out"]] [EVar "out"].
Lemma packed_body F : In F all_fields -> lookup "F::packed" (fl_tbl F) = Some (b_packed F).
Proof. intros H. by_field H. Qed.
Lemma zeros_bytes n : is_bytes (repeat 0 n).
Proof. induction n; simpl; constructor; auto. lia. Qed.
Lemma packed_runs F a : In F all_fields -> normal F a ->
  runsd 6 F "F::packed" [VArr a] [VArr (encode F (value F a))] [VArr (canon F a)].
Proof.
  intros H N. pose proof (pack_runs F a (repeat 0 (fl_nb F)) H N (zeros_bytes _)) as R.
  rewrite repeat_length in R. specialize (R (le_n _)).
  rewrite skipn_all2, app_nil_r in R by (rewrite repeat_length; auto).
  apply (call_step _ _ _ _ _ _ _ (packed_body F H)). intros md fuel Hf.
  unfold b_packed. evm. callee R. reflexivity.
Qed.

Definition b_unpacked (F : fld) : func :=
  mkfunc ["bytes"] [SLet "out" (ELit (lit F "F::zero")); SCall [] "F::unpack" [AMut "out"; AVal (EVar "bytes")]] [EVar "out"].
Lemma unpacked_body F : In F all_fields -> lookup "F::unpacked" (fl_tbl F) = Some (b_unpacked F).
Proof. intros H. by_field H. Qed.
Lemma rep_i64s F a : In F all_fields -> any_rep F a -> is_i64s F a.
Proof.
  intros H (L & A & T). split; auto. destruct (layout_facts F H) as (Hn & Hw & _).
  apply Forall_forall. intros x Hx. apply (In_nth _ _ 0) in Hx as (i & Hi & <-).
  destruct (Nat.eq_dec i (fl_n F - 1)) as [->|N].
  - unfold top in T. lia.
  - specialize (A i ltac:(lia)). assert (2 ^ fl_w F <= 2 ^ 60) by (apply Z.pow_le_mono_r; lia).
    assert (2 ^ 60 < 2 ^ 63) by (apply Z.pow_lt_mono_r; lia). lia.
Qed.
(** the integer that [unpack] reads *)
Definition read_bits (F : fld) : Z := if is_383 F then 384 else nbits F.
Definition decoded (F : fld) (bs : list Z) : Z := le_value (firstn (fl_nb F) bs) mod 2 ^ read_bits F.
Lemma unpack_runs F l bs : In F all_fields -> is_i64s F l -> is_bytes bs -> (fl_nb F <= List.length bs)%nat ->
  runsd 1 F "F::unpack" [VArr l; VArr bs] [] [VArr (to_words F (decoded F bs)); VArr bs] /\
  summand F (to_words F (decoded F bs)) /\ (is_383 F = false -> tight F (to_words F (decoded F bs))).
Proof.
  intros H A Bs L. destruct (unpack_ok F l bs H A Bs L) as (o & R & Vo & S & T).
  fold (read_bits F) in Vo. fold (decoded F bs) in Vo.
  rewrite <- Vo, <- (rep_unique F _ _ o H S). auto.
Qed.
Lemma zero_words F : In F all_fields -> is_i64s F (to_words F 0).
Proof.
  intros H. apply rep_i64s; auto. apply tight_any; auto. apply to_words_tight; auto.
  split; [lia|]. apply Z.pow_pos_nonneg; [lia|pose proof (nbits_pos F H); lia].
Qed.
Lemma unpacked_runs F bs : In F all_fields -> is_bytes bs -> (fl_nb F <= List.length bs)%nat ->
  runsd 2 F "F::unpacked" [VArr bs] [VArr (to_words F (decoded F bs))] [VArr bs].
Proof.
  intros H Bs L. destruct (unpack_runs F _ bs H (zero_words F H) Bs L) as (R & _).
  apply (call_step _ _ _ _ _ _ _ (unpacked_body F H)). intros md fuel Hf.
  unfold b_unpacked. rewrite (proj1 (lits_ok F H)). evm. callee R. reflexivity.
Qed.
Lemma unpacked_short F bs : In F all_fields -> is_bytes bs -> (List.length bs < fl_nb F)%nat ->
  panicsd 2 F "F::unpacked" [VArr bs].
Proof.
  intros H Bs L. pose proof (unpack_short F _ bs H (zero_words F H) Bs L) as R.
  apply (panic_step _ _ _ _ _ (unpacked_body F H)). intros md fuel Hf.
  unfold b_unpacked. rewrite (proj1 (lits_ok F H)). evm. callee R. reflexivity.
Qed.

(** ** Equality *)
Definition eq_step (i : nat) : stmt :=
  SLet "are_equal" (EAnd (EVar "are_equal")
    (EEq (EIdx (EVar "self") (EInt (Z.of_nat i))) (EIdx (EVar "other") (EInt (Z.of_nat i))))).
Definition b_normalize_self_eq (F : fld) : func :=
  mkfunc ["self"; "other"] (SLet "are_equal" (EInt 1) :: SCall [] "F::normalize" [AMut "self"] :: map eq_step (seq 0 (fl_n F)))
    [EVar "are_equal"].
Lemma normalize_self_eq_body F : In F all_fields -> lookup "F::normalize_self_eq" (fl_tbl F) = Some (b_normalize_self_eq F).
Proof. intros H. by_field H. Qed.
Definition eq_at (a b : list Z) (i : nat) : bool := nth i a 0 =? nth i b 0.
Lemma eq_steps md cl a b r l : (forall i, In i l -> i < List.length a /\ i < List.length b)%nat ->
  exec_list md cl (map eq_step l) [("self", VArr a); ("other", VArr b); ("are_equal", VInt (b2z r))] =
  Ok [("self", VArr a); ("other", VArr b); ("are_equal", VInt (b2z (r && forallb (eq_at a b) l)))].
Proof.
  revert r. induction l as [|i l IH]; intros r H.
  - simpl. rewrite andb_true_r. reflexivity.
  - cbn [map exec_list eq_step]. destruct (H i (or_introl eq_refl)) as [Ha Hb].
    unfold eq_step at 1. cbv beta iota zeta delta [exec eval get lookup String.eqb Ascii.eqb Bool.eqb bind as_arr as_int].
    rewrite (znth_nth a i Ha), (znth_nth b i Hb).
    cbv beta iota zeta delta [upd lookup String.eqb Ascii.eqb Bool.eqb bind as_arr as_int].
    change (if nth i a 0 =? nth i b 0 then 1 else 0) with (b2z (eq_at a b i)).
    replace (Z.land (b2z r) (b2z (eq_at a b i))) with (b2z (r && eq_at a b i)) by (destruct r, (eq_at a b i); reflexivity).
    rewrite IH by (intros; apply H; simpl; auto). cbn [forallb]. rewrite andb_assoc. reflexivity.
Qed.
Lemma eq_all a b n : List.length a = n -> List.length b = n -> forallb (eq_at a b) (seq 0 n) = true <-> a = b.
Proof.
  intros La Lb. rewrite forallb_forall. split.
  - intros H. apply (nth_ext a b 0 0); [congruence|]. intros i Hi. specialize (H i). rewrite in_seq in H.
    apply Z.eqb_eq. apply H. lia.
  - intros <- i _. apply Z.eqb_refl.
Qed.
Lemma bool_iff b c : (b = true <-> c = true) -> b = c.
Proof. destruct b, c; intuition congruence. Qed.
Lemma normalize_self_eq_runs F a b : In F all_fields -> normal F a -> List.length b = fl_n F ->
  exists r, runsd 5 F "F::normalize_self_eq" [VArr a; VArr b] [r] [VArr (canon F a); VArr b] /\
    truth (canon F a = b) r.
Proof.
  intros H N L. pose proof (normalize_normal F a H N) as R.
  assert (Lc : List.length (canon F a) = fl_n F). { destruct (canon_canonical F a H) as [(X & _) _]. exact X. }
  exists (VInt (b2z (forallb (eq_at (canon F a) b) (seq 0 (fl_n F))))). split.
  - apply (call_step _ _ _ _ _ _ _ (normalize_self_eq_body F H)). intros md fuel Hf.
    unfold b_normalize_self_eq, run_func. cbn [f_params f_body f_rets List.length Nat.eqb combine].
    remember (map eq_step (seq 0 (fl_n F))) as body eqn:Eb.
    cbn [exec_list]. cbv beta iota zeta delta [exec eval_args eval evals get gets
      lookup String.eqb Ascii.eqb Bool.eqb bind upd write_back bind_rets fst snd].
    rewrite R by lia. cbv beta iota zeta delta [exec eval_args eval evals get gets
      lookup String.eqb Ascii.eqb Bool.eqb bind upd write_back bind_rets fst snd].
    change (VInt 1) with (VInt (b2z true)). subst body.
    rewrite eq_steps by (intros i Hi; rewrite in_seq in Hi; lia). reflexivity.
  - unfold truth. destruct (forallb _ _) eqn:E.
    + left. split; auto. apply (eq_all _ _ (fl_n F)); auto.
    + right. split; auto. intros X. apply (eq_all _ _ (fl_n F)) in X; auto. congruence.
Qed.
Lemma same_normalize_eq : same "F::normalize_eq" Src_e221_3.f_normalize_eq. Proof. same_tac. Qed.
Lemma normalize_eq_runs F a b : In F all_fields -> normal F a -> normal F b ->
  exists r, runsd 6 F "F::normalize_eq" [VArr a; VArr b] [r] [VArr (canon F a); VArr (canon F b)] /\
    truth (eqmod F (value F a) (value F b)) r.
Proof.
  intros H Na Nb. pose proof (normalize_normal F b H Nb) as Rb.
  assert (Lc : List.length (canon F b) = fl_n F). { destruct (canon_canonical F b H) as [(X & _) _]. exact X. }
  destruct (normalize_self_eq_runs F a (canon F b) H Na Lc) as (r & R & T).
  exists r. split.
  - apply (call_step _ _ _ _ _ _ _ (same_normalize_eq F H)). intros md fuel Hf.
    unfold Src_e221_3.f_normalize_eq. evm. callee Rb. callee R. reflexivity.
  - unfold truth in *. rewrite canon_eq in T by auto. exact T.
Qed.

(** ** Bits *)
Definition b_bit_normalized (F : fld) : func :=
  mkfunc ["self"; "idx"] [SLet "byte" (EUDiv (EVar "idx") (EInt (fl_w F))); SLet "bit" (EURem (EVar "idx") (EInt (fl_w F)))]
    [EEq (EAnd (EShr (EIdx (EVar "self") (EVar "byte")) (EVar "bit")) (EInt 1)) (EInt 1)].
Lemma bit_normalized_body F : In F all_fields -> lookup "F::bit_normalized" (fl_tbl F) = Some (b_bit_normalized F).
Proof. intros H. by_field H. Qed.
Lemma land1 z : Z.land z 1 = b2z (Z.odd z).
Proof. change 1 with (Z.ones 1) at 1. rewrite Z.land_ones by lia. change (2 ^ 1) with 2. rewrite Zmod_odd. reflexivity. Qed.
Lemma words_testbit w : 1 < w -> forall l, (forall i, (i < List.length l)%nat -> 0 <= nth i l 0 < 2 ^ w) ->
  forall i, 0 <= i -> i / w < Z.of_nat (List.length l) ->
  Z.testbit (words_value w l) i = Z.testbit (nth (Z.to_nat (i / w)) l 0) (i mod w).
Proof.
  intros Hw. induction l as [|x l IH]; intros H i Hi L.
  - simpl in L. assert (0 <= i / w) by (apply Z.div_pos; lia). lia.
  - pose proof (H 0%nat ltac:(simpl; lia)) as H0. cbn [nth] in H0.
    assert (P : 0 < 2 ^ w) by (apply Z.pow_pos_nonneg; lia).
    destruct (Z_lt_ge_dec i w) as [Li|Li].
    + rewrite Z.div_small, Z.mod_small by lia. cbn [words_value]. change (nth (Z.to_nat 0) (x :: l) 0) with x.
      rewrite <- (Z.mod_pow2_bits_low (x + 2 ^ w * words_value w l) w i) by lia.
      rewrite (Z.mul_comm (2 ^ w)), Z.mod_add by lia. rewrite Z.mod_small by lia. reflexivity.
    + assert (E1 : i / w = Z.succ ((i - w) / w)).
      { replace i with ((i - w) + 1 * w) at 1 by ring. rewrite Z.div_add by lia. lia. }
      assert (E2 : i mod w = (i - w) mod w).
      { replace i with ((i - w) + 1 * w) at 1 by ring. rewrite Z.mod_add by lia. reflexivity. }
      assert (Q : 0 <= (i - w) / w) by (apply Z.div_pos; lia).
      rewrite E1, E2, Z2Nat.inj_succ by lia. cbn [nth words_value].
      cbn [List.length] in L. rewrite <- IH; [|intros j Hj; apply (H (S j)); simpl; lia|lia|lia].
      replace (words_value w l) with ((x + 2 ^ w * words_value w l) / 2 ^ w) at 2.
      2:{ rewrite (Z.mul_comm (2 ^ w)), Z.div_add, Z.div_small by lia. lia. }
      rewrite Z.div_pow2_bits by lia. f_equal. ring.
Qed.
Lemma bit_normalized_runs F a i : In F all_fields -> tight F a -> 0 <= i < fl_w F * Z.of_nat (fl_n F) ->
  runsd 1 F "F::bit_normalized" [VArr a; VInt i] [VInt (b2z (Z.testbit (value F a) i))] [VArr a; VInt i].
Proof.
  intros H T Hi. destruct (layout_facts F H) as (Ln & Lw & Lt & _).
  assert (Q : 0 <= i / fl_w F < Z.of_nat (fl_n F)).
  { split; [apply Z.div_pos; lia|apply Z.div_lt_upper_bound; lia]. }
  pose proof (Z.mod_pos_bound i (fl_w F) ltac:(lia)) as M.
  apply (call_step _ _ _ _ _ _ _ (bit_normalized_body F H)). intros md fuel Hf.
  unfold b_bit_normalized. evm.
  destruct (Z.eqb_spec (fl_w F) 0); [lia|].
  evm. destruct T as (L & A & T).
  replace (znth a (i / fl_w F)) with (Some (nth (Z.to_nat (i / fl_w F)) a 0)).
  2:{ rewrite <- (Z2Nat.id (i / fl_w F)) at 2 by lia. symmetry. apply znth_nth. lia. }
  rewrite shamt_ok by lia.
  rewrite land1.
  assert (E : Z.odd (Z.shiftr (nth (Z.to_nat (i / fl_w F)) a 0) (i mod fl_w F)) = Z.testbit (value F a) i).
  { rewrite <- Z.bit0_odd, Z.shiftr_spec by lia. rewrite Z.add_0_l. symmetry. unfold value.
    apply words_testbit; try lia. intros j Hj.
    destruct (Nat.eq_dec j (fl_n F - 1)) as [->|Nj].
    - unfold top in T. fold (B F) in T. split; [lia|].
      assert (B F <= 2 ^ fl_w F) by (apply Z.pow_le_mono_r; lia). lia.
    - apply A. lia. }
  rewrite E. destruct (Z.testbit (value F a) i); reflexivity.
Qed.
Lemma bit_normalized_panics F a i : In F all_fields -> any_rep F a -> fl_w F * Z.of_nat (fl_n F) <= i ->
  panicsd 1 F "F::bit_normalized" [VArr a; VInt i].
Proof.
  intros H (L & _) Hi. destruct (layout_facts F H) as (Ln & Lw & Lt & _).
  apply (panic_step _ _ _ _ _ (bit_normalized_body F H)). intros md fuel Hf.
  unfold b_bit_normalized. evm. destruct (Z.eqb_spec (fl_w F) 0); [lia|]. evm.
  replace (znth a (i / fl_w F)) with (@None Z); [reflexivity|].
  unfold znth. assert (Z.of_nat (fl_n F) <= i / fl_w F) by (apply Z.div_le_lower_bound; lia).
  destruct (Z.ltb_spec (i / fl_w F) 0); auto. symmetry. apply nth_error_None. lia.
Qed.
Lemma same_bit : same "F::bit" Src_e221_3.f_bit. Proof. same_tac. Qed.
Lemma bit_runs F a i : In F all_fields -> normal F a -> 0 <= i < fl_w F * Z.of_nat (fl_n F) ->
  runsd 5 F "F::bit" [VArr a; VInt i] [VInt (b2z (Z.testbit (value F a mod modulus F) i))] [VArr (canon F a); VInt i].
Proof.
  intros H N Hi. pose proof (normalize_normal F a H N) as R1.
  destruct (canon_canonical F a H) as [T _].
  pose proof (bit_normalized_runs F _ i H T Hi) as R2. rewrite canon_value in R2 by auto.
  apply (call_step _ _ _ _ _ _ _ (same_bit F H)). intros md fuel Hf.
  unfold Src_e221_3.f_bit. evm. callee R1. callee R2. reflexivity.
Qed.
Lemma bit_panics F a i : In F all_fields -> any_rep F a -> fl_w F * Z.of_nat (fl_n F) <= i ->
  panicsd 5 F "F::bit" [VArr a; VInt i].
Proof.
  intros H A Hi. destruct (normalize_runs F a H A) as (o & R1 & Ro & _).
  assert (Ao : any_rep F o).
  { pose proof (small_tops_ok F H). pose proof (B_pos F H). eapply rep_weaken; [exact Ro|lia|lia]. }
  pose proof (bit_normalized_panics F o i H Ao Hi) as R2.
  apply (panic_step _ _ _ _ _ (same_bit F H)). intros md fuel Hf.
  unfold Src_e221_3.f_bit. evm. callee R1. callee R2. reflexivity.
Qed.
