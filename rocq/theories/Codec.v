(** The byte codec: [unpack] and [pack_normalized], and their panics. *)
From Coq Require Import ZArith List String Lia Bool.
From Verif Require Import Lang Poly Kernel Fields Kfacts Ops.
Import ListNotations.
Local Open Scope string_scope.
Local Open Scope Z_scope.

Definition dI64s (n : nat) := DArr (repeat (loI64, hiI64) n) false.
Definition dBytes (n : nat) (open : bool) := DArr (repeat (0, 255) n) open.
Definition is_383 (F : fld) : bool := (fl_C F =? 187) && (fl_tb F =? 47).

(** mod_e383_187 keeps the 384th bit; the other fields mask what exceeds [nbits] *)
Definition unpack_ks (F : fld) : kspec :=
  mkks [dI64s (fl_n F); dBytes (fl_nb F) true] 0 (fl_w F)
    (if is_383 F then 0 else 2 ^ nbits F)
    (fbounds F 0 (if is_383 F then 2 * B F - 1 else B F - 1))
    (vexp 1 8 0 (fl_nb F)) [].
Lemma unpack_checked : forallb (fun F => has "F::unpack" F && kcheck (fn F "F::unpack") (unpack_ks F)) all_fields = true.
Proof. vm_cast_no_check (eq_refl true). Qed.

Lemma Forall_firstn {A} (P : A -> Prop) n l : Forall P l -> Forall P (firstn n l).
Proof. intros H. revert n. induction H; intros [|n]; simpl; constructor; auto. Qed.
Lemma Forall_repeat lo hi l : Forall (fun z => lo <= z <= hi) l -> Forall2 inb (repeat (lo, hi) (List.length l)) l.
Proof. induction 1; simpl; constructor; auto. Qed.
Lemma i64s_arg F l : is_i64s F l -> arg_ok (dI64s (fl_n F)) (VArr l).
Proof.
  intros (L & A). exists l. split; auto. rewrite repeat_length, <- L, firstn_all. split; auto.
  apply Forall_repeat. eapply Forall_impl; [|exact A]. intros z Hz. unfold loI64, hiI64. cbn beta in Hz. lia.
Qed.
Lemma bytes_arg n bs : is_bytes bs -> (n <= List.length bs)%nat -> arg_ok (dBytes n true) (VArr bs).
Proof.
  intros A L. exists bs. split; auto. rewrite repeat_length. split; [|discriminate].
  assert (n = List.length (firstn n bs)) as E by (rewrite firstn_length_le; auto).
  rewrite E at 1. apply Forall_repeat. eapply Forall_impl; [|apply Forall_firstn, A].
  intros z Hz. cbn beta in Hz. lia.
Qed.
Lemma short_arg bs : is_bytes bs -> arg_ok (dBytes (List.length bs) false) (VArr bs).
Proof.
  intros A. exists bs. split; auto. rewrite repeat_length, firstn_all. split; auto.
  apply Forall_repeat. eapply Forall_impl; [|exact A]. intros z Hz. cbn beta in Hz. lia.
Qed.
Lemma le_den F args j bs : nth_error args j = Some (VArr bs) -> (fl_nb F <= List.length bs)%nat ->
  xden args (vexp j 8 0 (fl_nb F)) = le_value (firstn (fl_nb F) bs).
Proof. intros H L. rewrite (vexp_den _ _ _ bs); auto. Qed.

Lemma le_value_bound bs : is_bytes bs -> 0 <= le_value bs < 2 ^ (8 * Z.of_nat (List.length bs)).
Proof.
  intros A. rewrite Z.pow_mul_r by lia. apply words_value_bound; [lia|].
  intros i Hi. change (2 ^ 8) with 256. unfold is_bytes in A. rewrite Forall_forall in A. apply A. apply nth_In; auto.
Qed.

Lemma unpack_ok F l bs : In F all_fields -> is_i64s F l -> is_bytes bs -> (fl_nb F <= List.length bs)%nat ->
  exists o, runsd 1 F "F::unpack" [VArr l; VArr bs] [] [VArr o; VArr bs] /\
    value F o = le_value (firstn (fl_nb F) bs) mod 2 ^ (if is_383 F then 384 else nbits F) /\
    summand F o /\ (is_383 F = false -> tight F o).
Proof.
  intros HF A Bs L. pose proof (all_chk _ unpack_checked F HF) as K.
  apply andb_true_iff in K as [Hh K].
  destruct (kernel_sound _ _ K [VArr l; VArr bs]) as (l0 & ws & E & R & W & D).
  { repeat constructor; [apply i64s_arg|apply bytes_arg]; auto. }
  injection E as <-.
  assert (O1 : (ws ++ skipn (List.length ws) l)%list = l -> True) by auto.
  apply rep_bounds in W; auto.
  assert (O2 : (ws ++ skipn (List.length ws) l)%list = ws).
  { rewrite skipn_all2, app_nil_r; auto. destruct W as (-> & _), A as (-> & _). auto. }
  exists ws. split; [|split; [|split]].
  - eapply body_runs; [apply has_fn; exact Hh|]. intros md cl. rewrite R. simpl. rewrite O2. reflexivity.
  - cbn [ks_mod ks_val ks_w unpack_ks] in D. rewrite wsum_value in D. fold (value F ws) in D.
    rewrite (le_den F _ 1 bs) in D by auto.
    destruct (is_383 F) eqn:E3.
    + apply divide_0_eq in D. rewrite D. rewrite Z.mod_small; auto.
      pose proof (le_value_bound (firstn (fl_nb F) bs) ltac:(apply Forall_firstn; auto)) as X.
      rewrite firstn_length_le in X by auto.
      assert (fl_nb F = 48%nat) as E4.
      { revert E3. clear -HF. repeat (destruct HF as [<-|HF]; [try discriminate; reflexivity|]). destruct HF. }
      rewrite E4 in *. exact X.
    + assert (tight F ws) as T by exact W.
      pose proof (tight_value F ws HF T) as Tv.
      destruct D as [q D]. replace (le_value (firstn (fl_nb F) bs)) with (value F ws + (- q) * 2 ^ nbits F) by lia.
      rewrite Z.mod_add by lia. rewrite Z.mod_small; auto.
  - destruct (is_383 F); [exact W|apply tight_summand; auto; exact W].
  - intros E3. rewrite E3 in W. exact W.
Qed.

(** ** pack_normalized *)
Definition pack_ks (F : fld) : kspec :=
  mkks [dF F 0 (B F - 1); dBytes (fl_nb F) true] 1 8 0 (repeat (0, 255) (fl_nb F)) (V F 0) [].
Lemma pack_checked : forallb (fun F => has "F::pack_normalized" F && kcheck (fn F "F::pack_normalized") (pack_ks F)) all_fields = true.
Proof. vm_cast_no_check (eq_refl true). Qed.
Lemma Forall2_repeat_bytes n ws : Forall2 inb (repeat (0, 255) n) ws -> is_bytes ws /\ List.length ws = n.
Proof.
  revert ws. induction n as [|n IH]; intros ws H; inversion H; subst; [repeat constructor|].
  apply IH in H4 as [A L]. split; [|simpl; congruence]. constructor; auto. destruct H2. simpl in *. lia.
Qed.
Lemma pack_normalized_ok F a bs : In F all_fields -> tight F a -> is_bytes bs -> (fl_nb F <= List.length bs)%nat ->
  exists ws, runsd 1 F "F::pack_normalized" [VArr a; VArr bs] [] [VArr a; VArr (ws ++ skipn (fl_nb F) bs)%list] /\
    is_bytes ws /\ List.length ws = fl_nb F /\ le_value ws = value F a.
Proof.
  intros HF A Bs L. pose proof (all_chk _ pack_checked F HF) as K.
  apply andb_true_iff in K as [Hh K].
  destruct (kernel_sound _ _ K [VArr a; VArr bs]) as (l0 & ws & E & R & W & D).
  { repeat constructor; [apply rep_arg; auto|apply bytes_arg; auto]. }
  injection E as <-. apply Forall2_repeat_bytes in W as [W1 W2].
  exists ws. split; [|split; [exact W1|split; [exact W2|]]].
  - eapply body_runs; [apply has_fn; exact Hh|]. intros md cl. rewrite R. simpl. rewrite W2. reflexivity.
  - cbn [ks_mod ks_val ks_w pack_ks] in D. rewrite wsum_value in D. fold (le_value ws) in D.
    rewrite (V_den F _ 0 _ _ a) in D by (reflexivity || exact A). apply divide_0_eq in D. exact D.
Qed.

(** ** Short buffers *)
Definition short_checked_F (F : fld) : bool :=
  has "F::unpack" F && has "F::pack_normalized" F &&
  forallb (fun k => kpanic (fn F "F::unpack") [dI64s (fl_n F); dBytes k false] &&
                    kpanic (fn F "F::pack_normalized") [dF F loI64 hiI64; dBytes k false]) (seq 0 (fl_nb F)).
Lemma short_checked : forallb short_checked_F all_fields = true.
Proof. vm_cast_no_check (eq_refl true). Qed.
Lemma unpack_short F l bs : In F all_fields -> is_i64s F l -> is_bytes bs -> (List.length bs < fl_nb F)%nat ->
  panicsd 1 F "F::unpack" [VArr l; VArr bs].
Proof.
  intros HF A Bs L. pose proof (all_chk _ short_checked F HF) as K. unfold short_checked_F in K.
  rewrite !andb_true_iff in K. destruct K as [[H1 H2] K]. rewrite forallb_forall in K.
  specialize (K (List.length bs)). rewrite in_seq, andb_true_iff in K. destruct (K ltac:(lia)) as [K1 _].
  intros md [|k] Hf; [lia|]. cbn [call]. rewrite (has_fn _ _ H1).
  eapply panic_sound; [exact K1|]. repeat constructor; [apply i64s_arg; auto|apply short_arg; auto].
Qed.
Lemma pack_normalized_short F a bs : In F all_fields -> any_rep F a -> is_bytes bs -> (List.length bs < fl_nb F)%nat ->
  panicsd 1 F "F::pack_normalized" [VArr a; VArr bs].
Proof.
  intros HF A Bs L. pose proof (all_chk _ short_checked F HF) as K. unfold short_checked_F in K.
  rewrite !andb_true_iff in K. destruct K as [[H1 H2] K]. rewrite forallb_forall in K.
  specialize (K (List.length bs)). rewrite in_seq, andb_true_iff in K. destruct (K ltac:(lia)) as [_ K2].
  intros md [|k] Hf; [lia|]. cbn [call]. rewrite (has_fn _ _ H2).
  eapply panic_sound; [exact K2|]. repeat constructor; [apply rep_arg; auto|apply short_arg; auto].
Qed.
