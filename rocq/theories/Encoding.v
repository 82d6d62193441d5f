(** The claims about normalisation, encodings, observers, masks and constants
    in their final form. *)
From Coq Require Import ZArith List String Lia Bool.
From Verif Require Import Lang Poly Kernel Fields Kfacts Ops Words Codec Normalize Methods Surface Forms Format Power Arith.
Import ListNotations.
Local Open Scope string_scope.
Local Open Scope Z_scope.

Lemma sub_sharp F a b : In F all_fields -> any_rep F a -> any_rep F b ->
  exists o, computes F "sub" a b o /\
    (eqmod F (value F o) (value F a - value F b) <-> carry F b = 0) /\
    rep F (- 2 ^ fl_tb F - 1) (2 ^ fl_tb F) o.
Proof.
  intros H A Bb. destruct (sub_claim F a b H A Bb) as (o & R & X & _ & Ro). exists o. split; [exact R|]. split; [|exact Ro].
  rewrite X. split; [|intros ->; rewrite Z.mul_0_r; apply Z.divide_0_r].
  intros D. destruct (layout_facts F H) as (_ & _ & _ & C & _).
  assert (M : 2 ^ 200 < modulus F).
  { apply Z.ltb_lt. revert F H A Bb X Ro R D C. intros F H _ _ _ _ _ _ _. revert F H. apply all_chk. vm_compute. reflexivity. }
  assert (K : Z.abs (carry F b) <= 2 ^ 63).
  { unfold carry. destruct Bb as (_ & _ & T). fold (B F). pose proof (B_pos F H).
    pose proof (Z.div_mod (top F b) (B F) ltac:(lia)). pose proof (Z.mod_pos_bound (top F b) (B F) ltac:(lia)). nia. }
  destruct (Z.eq_dec (carry F b) 0) as [|N]; auto. exfalso.
  apply Z.divide_abs_r in D. apply Z.divide_pos_le in D; [|nia].
  rewrite Z.abs_mul, (Z.abs_eq (2 * fl_C F)) in D by lia.
  assert (2 * fl_C F * Z.abs (carry F b) <= 2 ^ 10 * 2 ^ 63) by nia.
  change (2 ^ 10 * 2 ^ 63) with (2 ^ 73) in *.
  assert (2 ^ 73 < 2 ^ 200) by reflexivity. lia.
Qed.

(** ** Normalisation *)
Lemma normalize_claim F a : In F all_fields -> normal F a ->
  exists o, runs F "F::normalize" [VArr a] [] [VArr o] /\ canonical F o /\ value F o = value F a mod modulus F.
Proof.
  intros H N. exists (canon F a). split; [eapply runsd_runs; [|apply normalize_normal; auto]; lia|].
  split; [apply canon_canonical; auto|apply canon_value; auto].
Qed.
Lemma normalize_sharp F a : In F all_fields -> any_rep F a ->
  exists o, runs F "F::normalize" [VArr a] [] [VArr o] /\
    (canonical F o <-> 0 <= folded F a) /\
    (0 <= folded F a -> value F o = value F a mod modulus F) /\
    (folded F a < 0 -> value F o < 0).
Proof.
  intros H A. destruct (normalize_runs F a H A) as (o & R & Ro & Hk & Hu & Vo). exists o.
  split; [eapply runsd_runs; [|exact R]; lia|].
  assert (P : 0 <= folded F a -> canonical F o /\ value F o = value F a mod modulus F).
  { intros Hf. pose proof (normalize_ok F a H A Hf) as R'. destruct (runsd_det _ _ _ _ _ _ _ _ _ R R') as [_ E].
    injection E as ->. split; [apply norm_canonical; auto|apply to_words_value; auto]. }
  assert (Q : folded F a < 0 -> value F o < 0).
  { intros Hf. destruct (layout_facts F H) as (_ & _ & _ & C & _). rewrite Vo.
    destruct (Z.eqb_spec (norm_k F a) 1) as [E|_]; [exfalso|destruct (norm_k F a =? 0); lia].
    unfold norm_k in E. assert (N2 : 0 < 2 ^ nbits F) by (apply Z.pow_pos_nonneg; [lia|pose proof (nbits_pos F H); lia]).
    pose proof (Z.div_mod (folded F a + fl_C F) (2 ^ nbits F) ltac:(lia)).
    pose proof (Z.mod_pos_bound (folded F a + fl_C F) (2 ^ nbits F) N2).
    pose proof (modulus_pos F H) as (MP & _). unfold modulus in MP. nia. }
  split; [|split; [intros X; apply P; exact X|exact Q]].
  split; [|intros X; apply P; exact X]. intros [T _]. pose proof (tight_value F o H T).
  destruct (Z_lt_ge_dec (folded F a) 0) as [X|X]; [apply Q in X|]; lia.
Qed.

(** ** Bytes *)
Lemma in_firstn {A} n (x : A) l : In x (firstn n l) -> In x l.
Proof. intros I. rewrite <- (firstn_skipn n l). apply in_or_app. auto. Qed.
Lemma unpack_claim F l bs : In F all_fields -> is_i64s F l -> is_bytes bs -> (fl_nb F <= List.length bs)%nat ->
  exists o, runs F "F::unpack" [VArr l; VArr bs] [] [VArr o; VArr bs] /\
    runs F "F::unpacked" [VArr bs] [VArr o] [VArr bs] /\
    (F <> e383_187 -> value F o = le_value (firstn (fl_nb F) bs) mod 2 ^ nbits F /\ tight F o) /\
    (F = e383_187 -> value F o = le_value (firstn (fl_nb F) bs) /\ summand F o).
Proof.
  intros H L Bs Le. destruct (unpack_runs F l bs H L Bs Le) as (R & S & T). exists (to_words F (decoded F bs)).
  split; [eapply runsd_runs; [|exact R]; lia|].
  split; [eapply runsd_runs; [|apply unpacked_runs; auto]; lia|].
  rewrite to_words_value by auto. split.
  - intros N. assert (E : is_383 F = false).
    { revert N. clear -H. intros N. repeat (destruct H as [<-|H]; [reflexivity || (exfalso; apply N; reflexivity)|]). destruct H. }
    split; [|auto]. unfold decoded, read_bits. rewrite E. reflexivity.
  - intros ->. split; [|exact S]. unfold decoded, read_bits. change (is_383 e383_187) with true. cbv iota.
    apply Z.mod_small. assert (Lf : List.length (firstn (fl_nb e383_187) bs) = 48%nat) by (rewrite firstn_length; change (fl_nb e383_187) with 48%nat in *; lia).
    pose proof (words_value_bound 8 (firstn (fl_nb e383_187) bs) ltac:(lia)) as Bd. rewrite Lf in Bd.
    change ((2 ^ 8) ^ Z.of_nat 48) with (2 ^ 384) in Bd. apply Bd. intros i Hi. change (2 ^ 8) with 256.
    unfold is_bytes in Bs. rewrite Forall_forall in Bs. apply Bs.
    apply (in_firstn (fl_nb e383_187)). apply nth_In. lia.
Qed.
Lemma pack_claim F a bs : In F all_fields -> normal F a -> is_bytes bs -> (fl_nb F <= List.length bs)%nat ->
  exists a', runs F "F::pack" [VArr a; VArr bs] [] [VArr a'; VArr (encode F (value F a) ++ skipn (fl_nb F) bs)%list] /\
    runs F "F::packed" [VArr a] [VArr (encode F (value F a))] [VArr a'] /\
    canonical F a' /\ value F a' = value F a mod modulus F.
Proof.
  intros H N Bs L. exists (canon F a). split; [eapply runsd_runs; [|apply pack_runs; auto]; lia|].
  split; [eapply runsd_runs; [|apply packed_runs; auto]; lia|].
  split; [apply canon_canonical; auto|apply canon_value; auto].
Qed.
(** what [encode] is: the right number of bytes, and their value is the residue *)
Lemma encode_claim F z : In F all_fields ->
  List.length (encode F z) = fl_nb F /\ is_bytes (encode F z) /\ le_value (encode F z) = z mod modulus F.
Proof. intros H. split; [apply encode_len|]. split; [apply encode_bytes|apply encode_value; auto]. Qed.
Lemma round_trip_value F a : In F all_fields -> normal F a ->
  exists bs a' o, runs F "F::packed" [VArr a] [VArr bs] [VArr a'] /\ runs F "F::unpacked" [VArr bs] [VArr o] [VArr bs] /\
    canonical F o /\ eqmod F (value F o) (value F a).
Proof.
  intros H N. exists (encode F (value F a)), (canon F a).
  exists (to_words F (decoded F (encode F (value F a)))).
  assert (L : (fl_nb F <= List.length (encode F (value F a)))%nat) by (rewrite encode_len; lia).
  assert (E : decoded F (encode F (value F a)) = value F a mod modulus F).
  { unfold decoded. rewrite firstn_all2 by (rewrite encode_len; lia). rewrite encode_value by auto. apply Z.mod_small.
    pose proof (modulus_pos F H) as (MP & MC & _). pose proof (Z.mod_pos_bound (value F a) (modulus F) MP).
    assert (2 ^ nbits F <= 2 ^ read_bits F).
    { unfold read_bits. destruct (is_383 F) eqn:X; [|lia]. revert X. clear -H. intros X.
      repeat (destruct H as [<-|H]; [discriminate X || (vm_compute; discriminate)|]). destruct H. }
    destruct (layout_facts F H) as (_ & _ & _ & C & _). unfold modulus in *. lia. }
  split; [eapply runsd_runs; [|apply packed_runs; auto]; lia|].
  split; [eapply runsd_runs; [|apply unpacked_runs; auto using encode_bytes]; lia|].
  rewrite E. split; [apply norm_canonical; auto|]. rewrite to_words_value by auto.
  unfold eqmod. apply Z.mod_mod. pose proof (modulus_pos F H). lia.
Qed.
Lemma round_trip_bytes F bs : In F all_fields -> is_bytes bs -> List.length bs = fl_nb F -> le_value bs < 2 ^ nbits F ->
  exists o a', runs F "F::unpacked" [VArr bs] [VArr o] [VArr bs] /\
    runs F "F::packed" [VArr o] [VArr (encode F (le_value bs))] [VArr a'] /\
    (le_value bs < modulus F -> encode F (le_value bs) = bs).
Proof.
  intros H Bs L Lt.
  assert (NN : 0 <= le_value bs).
  { apply (words_value_bound 8); [lia|]. intros i Hi. change (2 ^ 8) with 256. unfold is_bytes in Bs. rewrite Forall_forall in Bs.
    apply Bs, nth_In, Hi. }
  assert (E : decoded F bs = le_value bs).
  { unfold decoded. rewrite firstn_all2 by lia. apply Z.mod_small. split; auto.
    unfold read_bits. destruct (is_383 F) eqn:X; [|lia]. eapply Z.lt_le_trans; [exact Lt|].
    revert X. clear -H. intros X. repeat (destruct H as [<-|H]; [discriminate X || (vm_compute; discriminate)|]). destruct H. }
  exists (to_words F (le_value bs)), (canon F (to_words F (le_value bs))).
  split; [rewrite <- E; eapply runsd_runs; [|apply unpacked_runs; auto; lia]; lia|]. split.
  - eapply (runsd_runs 6); [lia|]. rewrite <- (to_words_value F (le_value bs)) at 2 by auto. apply packed_runs; auto.
    apply tight_normal; auto. apply to_words_tight; auto.
  - intros M. unfold encode. rewrite Z.mod_small by lia. rewrite <- L. symmetry. apply le_bytes_unique. auto.
Qed.
Lemma encodings_identify F a b : In F all_fields -> normal F a -> normal F b ->
  exists ba a' bb b', runs F "F::packed" [VArr a] [VArr ba] [VArr a'] /\ runs F "F::packed" [VArr b] [VArr bb] [VArr b'] /\
    (ba = bb <-> eqmod F (value F a) (value F b)).
Proof.
  intros H A Bb. exists (encode F (value F a)), (canon F a), (encode F (value F b)), (canon F b).
  split; [eapply runsd_runs; [|apply packed_runs; auto]; lia|].
  split; [eapply runsd_runs; [|apply packed_runs; auto]; lia|]. apply encode_eq; auto.
Qed.
Lemma normal_domain F a b : In F all_fields ->
  (rep F 0 (2 ^ 63 - 1) a -> normal F a) /\
  (rep F (- 2 ^ fl_tb F + 1) (2 ^ 63 - 1) a -> normal F a) /\
  (normal F a -> canonical F b -> exists d, computes F "sub" a b d /\ normal F d).
Proof.
  intros H. pose proof (B_pos F H) as BP. pose proof (small_tops_ok F H) as ST.
  assert (P : rep F (- B F + 1) (2 ^ 63 - 1) a -> normal F a).
  { intros R. apply (top_normal F _ _ a H R); lia. }
  split; [intros R; apply P; eapply rep_weaken; [exact R|lia|lia]|]. split; [exact P|].
  intros [A Fa] C. assert (Nb : any_rep F b) by (apply canonical_normal; auto).
  destruct (sub_ok F a b H A Nb) as (d & R & Rd & V). exists d.
  split; [apply (computes_intro F 1); [auto|cbn; tauto|lia|exact R]|].
  split; [eapply rep_weaken; [exact Rd|lia|lia]|].
  destruct C as [Tb Lb]. rewrite (tight_carry F b H Tb), Z.mul_0_r, Z.add_0_r in V.
  assert (Eb : folded F b = value F b) by (unfold folded; rewrite (tight_carry F b H Tb); ring).
  pose proof (tight_value F b H Tb) as Vb. destruct (layout_facts F H) as (_ & _ & _ & Cp & _).
  assert (N2 : 0 < 2 ^ nbits F) by (pose proof (nbits_pos F H); apply Z.pow_pos_nonneg; lia).
  destruct (Z_lt_ge_dec (value F d) 0) as [Neg|Pos].
  - assert (E : carry F d = -1).
    { rewrite (carry_value F _ _ d H Rd). unfold modulus in *. symmetry. apply (Z.div_unique _ _ _ (value F d + 2 ^ nbits F)); [left; lia|ring]. }
    unfold folded at 1. rewrite E. lia.
  - rewrite (folded_value F _ _ d H Rd). assert (0 <= carry F d) by (rewrite (carry_value F _ _ d H Rd); apply Z.div_pos; lia).
    pose proof (Z.mod_pos_bound (value F d) _ N2). nia.
Qed.
