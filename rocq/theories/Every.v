(** What normalising, encoding, comparing, reading bits and printing do with
    every value, also those whose folded value is negative. *)
From Coq Require Import ZArith Znumtheory List String Lia Bool.
From Verif Require Import Lang Poly Kernel Fields Kfacts Ops Words Codec Normalize Methods Surface Forms Format Power Arith Encoding SmallMul Observe EverySpec.
From Verif Require Src_e221_3.
Import ListNotations.
Local Open Scope string_scope.
Local Open Scope Z_scope.

(** ** Normalisation *)
Lemma two_n F : In F all_fields -> 0 < 2 ^ nbits F.
Proof. intros H. apply Z.pow_pos_nonneg; [lia|]. pose proof (nbits_pos F H). lia. Qed.
Lemma tops_small F : In F all_fields -> fl_C F * (2 ^ 63 + 3) < modulus F /\ 4 * fl_C F < modulus F.
Proof.
  intros H. assert (K : forallb (fun F => (fl_C F * (2 ^ 63 + 3) <? modulus F) && (4 * fl_C F <? modulus F)) all_fields = true) by (vm_compute; reflexivity).
  pose proof (all_chk _ K F H) as K'. cbv beta in K'. apply andb_true_iff in K' as [A B]. apply Z.ltb_lt in A, B. auto.
Qed.
Lemma folded_low F a : In F all_fields -> any_rep F a -> - (fl_C F * 2 ^ 63) <= folded F a.
Proof.
  intros H A. rewrite (folded_value F _ _ a H A). pose proof (Z.mod_pos_bound (value F a) _ (two_n F H)).
  destruct (layout_facts F H) as (_ & _ & Lt & C & LB & _). destruct A as (_ & _ & T).
  assert (- 2 ^ 63 <= carry F a). { unfold carry. apply Z.div_le_lower_bound; nia. }
  nia.
Qed.
Lemma settled_runs F a : In F all_fields -> any_rep F a ->
  runsd 4 F "F::normalize" [VArr a] [] [VArr (to_words F (settled F a))] /\ rep F (- B F - 1) (B F) (to_words F (settled F a)).
Proof.
  intros H A. destruct (normalize_runs F a H A) as (o & R & Ro & Hk & _ & Vo).
  assert (V : value F o = settled F a).
  { unfold settled. destruct (Z.leb_spec 0 (folded F a)) as [P|P].
    - pose proof (normalize_ok F a H A P) as R'. destruct (runsd_det _ _ _ _ _ _ _ _ _ R R') as [_ E].
      injection E as ->. apply to_words_value; auto.
    - rewrite Vo. pose proof (two_n F H) as N2. pose proof (folded_low F a H A) as FL. destruct (tops_small F H) as [TS _].
      destruct (layout_facts F H) as (_ & _ & _ & C & _). unfold modulus in TS.
      destruct (Z.leb_spec (- fl_C F) (folded F a)) as [Q|Q].
      + replace (norm_k F a) with 0; [reflexivity|]. unfold norm_k. symmetry. apply Z.div_small. lia.
      + replace (norm_k F a) with (-1); [reflexivity|]. unfold norm_k.
        apply (Z.div_unique _ _ _ (folded F a + fl_C F + 2 ^ nbits F)); [left; lia|ring]. }
  rewrite <- V, <- (rep_unique F _ _ o H Ro). auto.
Qed.
Lemma settled_any F a : In F all_fields -> any_rep F a -> any_rep F (to_words F (settled F a)).
Proof.
  intros H A. pose proof (small_tops_ok F H). pose proof (B_pos F H).
  eapply rep_weaken; [apply (settled_runs F a H A)|lia|lia].
Qed.
Lemma small_multiple F m : In F all_fields -> - modulus F < m < modulus F -> (modulus F | m) -> m = 0.
Proof. intros H L [q ->]. pose proof (modulus_pos F H). assert (q = 0) by nia. subst q. ring. Qed.
Lemma settled_keeps F a : In F all_fields -> any_rep F a -> (eqmod F (settled F a) (value F a) <-> - fl_C F <= folded F a).
Proof.
  intros H A. pose proof (modulus_pos F H) as (MP & MC & _). destruct (layout_facts F H) as (_ & _ & _ & C & _).
  pose proof (folded_eqmod F a) as FE.
  unfold settled. destruct (Z.leb_spec 0 (folded F a)) as [P|P]; [|destruct (Z.leb_spec (- fl_C F) (folded F a)) as [Q|Q]].
  - split; [lia|]. intros _. unfold eqmod. apply Z.mod_mod. lia.
  - tauto.
  - split; [|lia]. intros E. exfalso. assert (X : eqmod F (folded F a - 2 * fl_C F) (folded F a)) by (unfold eqmod in *; congruence).
    apply eqmod_divide in X; auto. replace (folded F a - (folded F a - 2 * fl_C F)) with (2 * fl_C F) in X by ring.
    apply (small_multiple F) in X; auto; lia.
Qed.
(** what is settled identifies residues whose folded values have the same sign *)
Lemma settled_sign F a : In F all_fields -> (settled F a < 0 <-> folded F a < 0).
Proof.
  intros H. pose proof (modulus_pos F H) as (MP & _). destruct (layout_facts F H) as (_ & _ & _ & C & _).
  pose proof (Z.mod_pos_bound (value F a) (modulus F) MP).
  unfold settled. destruct (Z.leb_spec 0 (folded F a)); [|destruct (Z.leb_spec (- fl_C F) (folded F a))]; lia.
Qed.
Lemma settled_eq F a b : In F all_fields -> any_rep F a -> any_rep F b ->
  (settled F a = settled F b <-> eqmod F (value F a) (value F b) /\ (folded F a < 0 <-> folded F b < 0)).
Proof.
  intros H A B'. pose proof (settled_sign F a H) as Sa. pose proof (settled_sign F b H) as Sb.
  pose proof (folded_low F a H A) as La. pose proof (folded_low F b H B') as Lb. destruct (tops_small F H) as [TS _].
  destruct (layout_facts F H) as (_ & _ & _ & C & _).
  assert (FE : eqmod F (value F a) (value F b) <-> eqmod F (folded F a) (folded F b)).
  { pose proof (folded_eqmod F a). pose proof (folded_eqmod F b). unfold eqmod in *. split; congruence. }
  split.
  - intros E. split; [|rewrite <- Sa, <- Sb, E; tauto]. rewrite E in Sa. unfold settled in E.
    destruct (Z.leb_spec 0 (folded F a)) as [Pa|Pa], (Z.leb_spec 0 (folded F b)) as [Pb|Pb]; try lia; [exact E|].
    rewrite FE. assert (folded F a = folded F b) as ->; [|reflexivity].
    destruct (Z.leb_spec (- fl_C F) (folded F a)), (Z.leb_spec (- fl_C F) (folded F b)); lia.
  - intros [E Sg]. destruct (Z_lt_ge_dec (folded F a) 0) as [Na|Na].
    + assert (folded F a = folded F b) as Ef.
      { rewrite FE in E. apply eqmod_divide in E; auto. apply (small_multiple F) in E; auto; lia. }
      unfold settled. rewrite Ef. destruct (Z.leb_spec 0 (folded F b)); [lia|reflexivity].
    + unfold settled. destruct (Z.leb_spec 0 (folded F a)), (Z.leb_spec 0 (folded F b)); try lia. exact E.
Qed.
Lemma normalize_every F a : In F all_fields -> any_rep F a ->
  exists o, runs F "F::normalize" [VArr a] [] [VArr o] /\ rep F (- 2 ^ fl_tb F - 1) (2 ^ fl_tb F) o /\ value F o = settled F a /\
    (eqmod F (value F o) (value F a) <-> - fl_C F <= folded F a).
Proof.
  intros H A. destruct (settled_runs F a H A) as [R Ro]. exists (to_words F (settled F a)).
  split; [eapply runsd_runs; [|exact R]; lia|]. split; [exact Ro|]. rewrite to_words_value by auto. split; [reflexivity|].
  apply settled_keeps; auto.
Qed.

(** ** Encoding *)
Definition last_byte (F : fld) : Z := 2 ^ (written_bits F - 8 * Z.of_nat (fl_nb F - 1)) - 1.
Definition pack_every_ks (F : fld) : kspec :=
  mkks [dF F loI64 hiI64; dBytes (fl_nb F) true] 1 8 (2 ^ written_bits F) (repeat (0, 255) (fl_nb F - 1) ++ [(0, last_byte F)])%list (V F 0) [].
Lemma pack_every_checked : forallb (fun F => has "F::pack_normalized" F && kcheck (fn F "F::pack_normalized") (pack_every_ks F) &&
  (1 <=? Z.of_nat (fl_nb F)) && (8 * (Z.of_nat (fl_nb F) - 1) <=? written_bits F) && (written_bits F <=? 8 * Z.of_nat (fl_nb F)) &&
  (nbits F <=? written_bits F)) all_fields = true.
Proof. vm_cast_no_check (eq_refl true). Qed.
Lemma written_facts F : In F all_fields -> 1 <= Z.of_nat (fl_nb F) /\ 8 * (Z.of_nat (fl_nb F) - 1) <= written_bits F <= 8 * Z.of_nat (fl_nb F) /\
  nbits F <= written_bits F.
Proof.
  intros H. pose proof (all_chk _ pack_every_checked F H) as K. cbv beta in K. rewrite !andb_true_iff in K.
  destruct K as [[[[_ K1] K2] K3] K4]. apply Z.leb_le in K1, K2, K3, K4. lia.
Qed.
Lemma pack_normalized_any F a bs : In F all_fields -> any_rep F a -> is_bytes bs -> (fl_nb F <= List.length bs)%nat ->
  exists ws, runsd 1 F "F::pack_normalized" [VArr a; VArr bs] [] [VArr a; VArr (ws ++ skipn (fl_nb F) bs)%list] /\
    is_bytes ws /\ List.length ws = fl_nb F /\ le_value ws = value F a mod 2 ^ written_bits F.
Proof.
  intros H A Bs L. destruct (written_facts F H) as (W1 & W2 & W3).
  pose proof (all_chk _ pack_every_checked F H) as K. cbv beta in K. do 4 apply andb_true_iff in K as [K _].
  apply andb_true_iff in K as [Hh K].
  destruct (kernel_sound _ _ K [VArr a; VArr bs]) as (l0 & ws & E & R & W & D).
  { repeat constructor; [apply rep_arg; auto|apply bytes_arg; auto]. }
  injection E as <-. cbn [ks_bounds pack_every_ks] in W. apply Forall2_repeat_last in W as (Lw & W & Wl).
  replace (S (fl_nb F - 1)) with (fl_nb F) in Lw by lia.
  assert (Bd : forall x y z, inb (x, y) z -> x <= z <= y) by (intros x y z [? ?]; simpl in *; lia).
  assert (LB : 2 ^ (written_bits F - 8 * Z.of_nat (fl_nb F - 1)) <= 2 ^ 8) by (apply Z.pow_le_mono_r; lia).
  assert (Byt : is_bytes ws).
  { apply Forall_forall. intros x Hx. apply (In_nth _ _ 0) in Hx as (i & Hi & <-).
    destruct (Nat.eq_dec i (fl_nb F - 1)) as [->|Ni].
    - apply Bd in Wl. unfold last_byte in Wl. change (2 ^ 8) with 256 in LB. lia.
    - specialize (W i ltac:(lia)). apply Bd in W. lia. }
  exists ws. split; [|split; [exact Byt|split; [exact Lw|]]].
  - eapply body_runs; [apply has_fn; exact Hh|]. intros md cl. rewrite R. simpl. rewrite Lw. reflexivity.
  - cbn [ks_mod ks_val ks_w pack_every_ks] in D. rewrite wsum_value in D. fold (le_value ws) in D.
    rewrite (V_den F _ 0 _ _ a) in D by (reflexivity || exact A).
    assert (U : 0 <= le_value ws < 2 ^ written_bits F).
    { unfold le_value. rewrite (words_value_split 8 ws (fl_nb F - 1)) by lia.
      assert (Fb : is_bytes (firstn (fl_nb F - 1) ws)) by (apply Forall_firstn; exact Byt).
      apply le_value_bound in Fb. rewrite firstn_length_le in Fb by lia. unfold le_value in Fb.
      apply Bd in Wl. unfold last_byte in Wl.
      assert (Es : 2 ^ written_bits F = 2 ^ (8 * Z.of_nat (fl_nb F - 1)) * 2 ^ (written_bits F - 8 * Z.of_nat (fl_nb F - 1))).
      { rewrite <- Z.pow_add_r by lia. f_equal. lia. }
      rewrite <- Z.pow_mul_r by lia. nia. }
    rewrite <- (Z.mod_small (le_value ws) (2 ^ written_bits F)) by exact U.
    destruct D as [q D]. replace (le_value ws) with (value F a + q * 2 ^ written_bits F) by lia. apply Z.mod_add. lia.
Qed.
Lemma pack_normalized_every F a bs : In F all_fields -> any_rep F a -> is_bytes bs ->
  if (List.length bs <? fl_nb F)%nat then panics F "F::pack_normalized" [VArr a; VArr bs]
  else exists ws, runs F "F::pack_normalized" [VArr a; VArr bs] [] [VArr a; VArr (ws ++ skipn (fl_nb F) bs)%list] /\
    is_bytes ws /\ List.length ws = fl_nb F /\ le_value ws = value F a mod 2 ^ written_bits F.
Proof.
  intros H A Bs. destruct (Nat.ltb_spec (List.length bs) (fl_nb F)) as [L|L].
  - pose proof (pack_normalized_short F a bs H A Bs L) as P. eapply panicsd_panics; [|exact P]. lia.
  - destruct (pack_normalized_any F a bs H A Bs L) as (ws & R & W). exists ws. split; auto. eapply runsd_runs; [|exact R]. lia.
Qed.
(** the bytes written for a value *)
Definition bytes_of (F : fld) (a : list Z) : list Z := le_bytes (fl_nb F) (settled F a mod 2 ^ written_bits F).
Lemma pack_every_runs F a bs : In F all_fields -> any_rep F a -> is_bytes bs -> (fl_nb F <= List.length bs)%nat ->
  runsd 5 F "F::pack" [VArr a; VArr bs] [] [VArr (to_words F (settled F a)); VArr (bytes_of F a ++ skipn (fl_nb F) bs)%list].
Proof.
  intros H A Bs L. destruct (settled_runs F a H A) as [R1 _].
  destruct (pack_normalized_any F _ bs H (settled_any F a H A) Bs L) as (ws & R2 & W1 & W2 & W3).
  rewrite to_words_value in W3 by auto.
  assert (E : ws = bytes_of F a). { rewrite (le_bytes_unique ws), W2, W3 by auto. reflexivity. }
  subst ws. apply (call_step _ _ _ _ _ _ _ (same_pack F H)). intros md fuel Hf.
  unfold Src_e221_3.f_pack. evm. callee R1. callee R2. reflexivity.
Qed.
Lemma bytes_of_facts F a : In F all_fields -> is_bytes (bytes_of F a) /\ List.length (bytes_of F a) = fl_nb F /\
  le_value (bytes_of F a) = settled F a mod 2 ^ written_bits F.
Proof.
  intros H. destruct (written_facts F H) as (W1 & W2 & W3). pose proof (nbits_pos F H) as NP.
  assert (P : 0 < 2 ^ written_bits F) by (apply Z.pow_pos_nonneg; lia).
  pose proof (Z.mod_pos_bound (settled F a) _ P) as M.
  assert (Q : 2 ^ written_bits F <= 256 ^ Z.of_nat (fl_nb F)).
  { change 256 with (2 ^ 8). rewrite <- Z.pow_mul_r by lia. apply Z.pow_le_mono_r; lia. }
  split; [apply le_bytes_bytes|]. split; [apply le_bytes_len|]. apply le_bytes_value. lia.
Qed.
Lemma packed_every_runs F a : In F all_fields -> any_rep F a ->
  runsd 6 F "F::packed" [VArr a] [VArr (bytes_of F a)] [VArr (to_words F (settled F a))].
Proof.
  intros H A. pose proof (pack_every_runs F a (repeat 0 (fl_nb F)) H A (zeros_bytes _)) as R.
  rewrite repeat_length in R. specialize (R (le_n _)).
  rewrite skipn_all2 in R by (rewrite repeat_length; lia). rewrite app_nil_r in R.
  apply (call_step _ _ _ _ _ _ _ (packed_body F H)). intros md fuel Hf.
  unfold b_packed. evm. callee R. reflexivity.
Qed.
Lemma settled_range F a : In F all_fields -> any_rep F a -> - modulus F < settled F a < modulus F.
Proof.
  intros H A. pose proof (modulus_pos F H) as (MP & _). pose proof (folded_low F a H A). destruct (tops_small F H) as [TS _].
  pose proof (Z.mod_pos_bound (value F a) (modulus F) MP). destruct (layout_facts F H) as (_ & _ & _ & C & _).
  unfold settled. destruct (Z.leb_spec 0 (folded F a)); [lia|]. destruct (Z.leb_spec (- fl_C F) (folded F a)); lia.
Qed.
Lemma settled_mod F a : In F all_fields -> any_rep F a ->
  settled F a mod 2 ^ written_bits F = if settled F a <? 0 then 2 ^ written_bits F + settled F a else settled F a.
Proof.
  intros H A. pose proof (settled_range F a H A). destruct (written_facts F H) as (_ & _ & W). pose proof (nbits_pos F H).
  assert (2 ^ nbits F <= 2 ^ written_bits F) by (apply Z.pow_le_mono_r; lia).
  destruct (layout_facts F H) as (_ & _ & _ & C & _). unfold modulus in *.
  destruct (Z.ltb_spec (settled F a) 0).
  - symmetry. apply (Z.mod_unique _ _ (-1)); [left; lia|ring].
  - apply Z.mod_small. lia.
Qed.
Lemma pack_every F a bs : In F all_fields -> any_rep F a -> is_bytes bs -> (fl_nb F <= List.length bs)%nat ->
  exists a' ws, runs F "F::pack" [VArr a; VArr bs] [] [VArr a'; VArr (ws ++ skipn (fl_nb F) bs)%list] /\
    runs F "F::packed" [VArr a] [VArr ws] [VArr a'] /\ runs F "F::normalize" [VArr a] [] [VArr a'] /\
    is_bytes ws /\ List.length ws = fl_nb F /\
    (0 <= folded F a -> le_value ws = value F a mod modulus F) /\
    (- fl_C F <= folded F a < 0 -> le_value ws = 2 ^ written_bits F + folded F a) /\
    (folded F a < - fl_C F -> le_value ws = 2 ^ written_bits F + folded F a - 2 * fl_C F).
Proof.
  intros H A Bs L. exists (to_words F (settled F a)), (bytes_of F a).
  split; [eapply runsd_runs; [|apply pack_every_runs; auto]; lia|].
  split; [eapply runsd_runs; [|apply packed_every_runs; auto]; lia|].
  split; [eapply runsd_runs; [|apply settled_runs; auto]; lia|].
  destruct (bytes_of_facts F a H) as (B1 & B2 & B3). split; [exact B1|]. split; [exact B2|].
  rewrite B3, settled_mod by auto. pose proof (settled_sign F a H) as Sg.
  destruct (layout_facts F H) as (_ & _ & _ & C & _).
  destruct (Z.ltb_spec (settled F a) 0) as [N|N]; unfold settled in *;
    destruct (Z.leb_spec 0 (folded F a)); try destruct (Z.leb_spec (- fl_C F) (folded F a)); repeat split; intros; lia.
Qed.
Lemma produced_low F a : In F all_fields -> produced F a -> any_rep F a /\ - fl_C F <= folded F a.
Proof.
  intros H R. destruct (layout_facts F H) as (_ & _ & _ & C & LB & _). fold (B F) in LB.
  assert (A : any_rep F a). { pose proof (small_tops_ok F H). unfold B in *. eapply rep_weaken; [exact R|lia|lia]. }
  split; [exact A|]. rewrite (folded_value F _ _ a H A). pose proof (two_n F H) as N2.
  pose proof (Z.mod_pos_bound (value F a) _ N2) as M.
  destruct (Z_lt_ge_dec (carry F a) (-1)) as [Lt|Ge]; [|nia].
  destruct (rep_value F _ _ a H R) as [E Bd]. pose proof (lowmod_pos F H) as LM. destruct R as (_ & _ & T). fold (B F) in T.
  unfold carry in *. fold (B F) in *.
  pose proof (Z.div_mod (top F a) (B F) ltac:(lia)) as DM. pose proof (Z.mod_pos_bound (top F a) (B F) ltac:(lia)) as MB.
  assert (Et : top F a = - B F - 1) by nia.
  assert (Eq : top F a / B F = -2) by nia. rewrite Eq.
  assert (V : value F a mod 2 ^ nbits F = value F a + 2 * 2 ^ nbits F).
  { symmetry. apply (Z.mod_unique _ _ (-2)); [left|ring]. rewrite pow_nbits' by auto. rewrite E, Et. nia. }
  rewrite V, E, Et, pow_nbits' by auto.
  assert (fl_C F <= lowmod F).
  { clear -H. assert (K : forallb (fun F => fl_C F <=? lowmod F) all_fields = true) by (vm_compute; reflexivity).
    pose proof (all_chk _ K F H) as K'. apply Z.leb_le in K'. exact K'. }
  nia.
Qed.
Lemma packed_identifies F a b wa wb a' b' : In F all_fields -> produced F a -> produced F b ->
  runs F "F::packed" [VArr a] [VArr wa] [VArr a'] -> runs F "F::packed" [VArr b] [VArr wb] [VArr b'] ->
  (wa = wb <-> eqmod F (value F a) (value F b) /\ (folded F a < 0 <-> folded F b < 0)).
Proof.
  intros H Pa Pb Ra Rb. destruct (produced_low F a H Pa) as [A La]. destruct (produced_low F b H Pb) as [B' Lb].
  assert (wa = bytes_of F a) as ->.
  { pose proof (runsd_runs 6 F _ _ _ _ ltac:(lia) (packed_every_runs F a H A) Debug). pose proof (Ra Debug). congruence. }
  assert (wb = bytes_of F b) as ->.
  { pose proof (runsd_runs 6 F _ _ _ _ ltac:(lia) (packed_every_runs F b H B') Debug). pose proof (Rb Debug). congruence. }
  rewrite <- (settled_eq F a b H A B').
  split; [|intros E; unfold bytes_of; rewrite E; reflexivity].
  intros E. apply (f_equal le_value) in E. destruct (bytes_of_facts F a H) as (_ & _ & Va). destruct (bytes_of_facts F b H) as (_ & _ & Vb).
  rewrite Va, Vb, !settled_mod in E by auto. pose proof (settled_sign F a H) as Sa. pose proof (settled_sign F b H) as Sb.
  pose proof (settled_range F a H A). pose proof (settled_range F b H B').
  destruct (written_facts F H) as (_ & _ & W). pose proof (nbits_pos F H).
  assert (2 ^ nbits F <= 2 ^ written_bits F) by (apply Z.pow_le_mono_r; lia).
  assert (G : forall x, any_rep F x -> - fl_C F <= folded F x -> settled F x < 0 -> - fl_C F <= settled F x).
  { intros x Ax Lx Nx. rewrite (settled_sign F x H) in Nx. unfold settled.
    destruct (Z.leb_spec 0 (folded F x)); [lia|]. destruct (Z.leb_spec (- fl_C F) (folded F x)); lia. }
  pose proof (G a A La) as Ga. pose proof (G b B' Lb) as Gb. unfold modulus in *.
  destruct (Z.ltb_spec (settled F a) 0), (Z.ltb_spec (settled F b) 0); lia.
Qed.

(** ** Equality *)
Lemma self_eq_every_runs F a b : In F all_fields -> any_rep F a -> List.length b = fl_n F ->
  exists r, runsd 5 F "F::normalize_self_eq" [VArr a; VArr b] [r] [VArr (to_words F (settled F a)); VArr b] /\
    truth (to_words F (settled F a) = b) r.
Proof.
  intros H N L. destruct (settled_runs F a H N) as [R (Lc & _)]. set (o := to_words F (settled F a)) in *.
  exists (VInt (b2z (forallb (eq_at o b) (seq 0 (fl_n F))))). split.
  - apply (call_step _ _ _ _ _ _ _ (normalize_self_eq_body F H)). intros md fuel Hf.
    unfold b_normalize_self_eq, run_func. cbn [f_params f_body f_rets List.length Nat.eqb combine].
    remember (map eq_step (seq 0 (fl_n F))) as body eqn:Eb.
    cbn [exec_list]. cbv beta iota zeta delta [exec eval_args eval evals get gets
      lookup String.eqb Ascii.eqb Bool.eqb bind upd write_back bind_rets fst snd].
    rewrite R by lia. cbv beta iota zeta delta [exec eval_args eval evals get gets
      lookup String.eqb Ascii.eqb Bool.eqb bind upd write_back bind_rets fst snd].
    change (VInt 1) with (VInt (b2z true)). subst body.
    rewrite eq_steps by (intros i Hi; rewrite in_seq in Hi; lia). reflexivity.
  - unfold truth. destruct (forallb _ _) eqn:E.
    + left. split; auto. apply (eq_all _ _ (fl_n F)); auto.
    + right. split; auto. intros X. apply (eq_all _ _ (fl_n F)) in X; auto. congruence.
Qed.
Lemma to_words_inj F x y : In F all_fields -> to_words F x = to_words F y <-> x = y.
Proof. intros H. split; [|congruence]. intros E. rewrite <- (to_words_value F x H), <- (to_words_value F y H). congruence. Qed.
Lemma truth_iff P Q r : (P <-> Q) -> truth P r -> truth Q r.
Proof. unfold truth. tauto. Qed.
Lemma eq_every F a b : In F all_fields -> any_rep F a -> any_rep F b ->
  exists r a' b', runs F "F::normalize_eq" [VArr a; VArr b] [r] [VArr a'; VArr b'] /\
    runs F "F::normalize" [VArr a] [] [VArr a'] /\ runs F "F::normalize" [VArr b] [] [VArr b'] /\
    truth (eqmod F (value F a) (value F b) /\ (folded F a < 0 <-> folded F b < 0)) r.
Proof.
  intros H Na Nb. destruct (settled_runs F a H Na) as [Ra _]. destruct (settled_runs F b H Nb) as [Rb (Lb & _)].
  destruct (self_eq_every_runs F a (to_words F (settled F b)) H Na Lb) as (r & R & T).
  exists r, (to_words F (settled F a)), (to_words F (settled F b)). split.
  - eapply (runsd_runs 6); [lia|]. apply (call_step _ _ _ _ _ _ _ (same_normalize_eq F H)). intros md fuel Hf.
    unfold Src_e221_3.f_normalize_eq. evm. callee Rb. callee R. reflexivity.
  - split; [eapply runsd_runs; [|exact Ra]; lia|]. split; [eapply runsd_runs; [|exact Rb]; lia|].
    eapply truth_iff; [|exact T]. rewrite to_words_inj by auto. apply settled_eq; auto.
Qed.
Lemma canonical_folded F b : In F all_fields -> canonical F b -> 0 <= folded F b /\ settled F b = value F b.
Proof.
  intros H C. destruct (canonical_normal F b H C) as [_ P]. split; [exact P|]. unfold settled.
  destruct (Z.leb_spec 0 (folded F b)); [|lia]. apply canonical_mod; auto.
Qed.
Lemma self_eq_every F a b : In F all_fields -> any_rep F a -> canonical F b ->
  exists r a', runs F "F::normalize_self_eq" [VArr a; VArr b] [r] [VArr a'; VArr b] /\ runs F "F::normalize" [VArr a] [] [VArr a'] /\
    truth (eqmod F (value F a) (value F b) /\ 0 <= folded F a) r.
Proof.
  intros H Na C. assert (L : List.length b = fl_n F) by apply C. destruct (canonical_folded F b H C) as [P V].
  assert (Nb : any_rep F b) by (apply (canonical_normal F b H C)).
  destruct (settled_runs F a H Na) as [Ra _]. destruct (self_eq_every_runs F a b H Na L) as (r & R & T).
  exists r, (to_words F (settled F a)). split; [eapply runsd_runs; [|exact R]; lia|].
  split; [eapply runsd_runs; [|exact Ra]; lia|]. eapply truth_iff; [|exact T].
  assert (Eb : b = to_words F (settled F b)). { rewrite V. destruct C as [C _]. eapply rep_unique; eauto. }
  rewrite Eb at 1. rewrite to_words_inj, settled_eq by auto. intuition lia.
Qed.

(** ** Bits *)
Lemma words_testbit_any w : 1 < w -> forall l, (forall i, (S i < List.length l)%nat -> 0 <= nth i l 0 < 2 ^ w) ->
  forall i, 0 <= i -> i / w < Z.of_nat (List.length l) ->
  Z.testbit (words_value w l) i = Z.testbit (nth (Z.to_nat (i / w)) l 0) (i mod w).
Proof.
  intros Hw. induction l as [|x l IH]; intros H i Hi L.
  - simpl in L. assert (0 <= i / w) by (apply Z.div_pos; lia). lia.
  - assert (P : 0 < 2 ^ w) by (apply Z.pow_pos_nonneg; lia).
    destruct l as [|y l].
    { cbn [List.length] in L. assert (i < w). { destruct (Z_lt_ge_dec i w); auto. assert (1 <= i / w) by (apply Z.div_le_lower_bound; lia). lia. }
      rewrite Z.div_small, Z.mod_small by lia. change (nth (Z.to_nat 0) [x] 0) with x. cbn [words_value]. f_equal. ring. }
    pose proof (H 0%nat ltac:(simpl; lia)) as H0. cbn [nth] in H0. remember (y :: l) as m.
    destruct (Z_lt_ge_dec i w) as [Li|Li].
    + rewrite Z.div_small, Z.mod_small by lia. cbn [words_value]. change (nth (Z.to_nat 0) (x :: m) 0) with x.
      rewrite <- (Z.mod_pow2_bits_low (x + 2 ^ w * words_value w m) w i) by lia.
      rewrite (Z.mul_comm (2 ^ w)), Z.mod_add by lia. rewrite Z.mod_small by lia. reflexivity.
    + assert (E1 : i / w = Z.succ ((i - w) / w)).
      { replace i with ((i - w) + 1 * w) at 1 by ring. rewrite Z.div_add by lia. lia. }
      assert (E2 : i mod w = (i - w) mod w).
      { replace i with ((i - w) + 1 * w) at 1 by ring. rewrite Z.mod_add by lia. reflexivity. }
      assert (Q : 0 <= (i - w) / w) by (apply Z.div_pos; lia).
      rewrite E1, E2, Z2Nat.inj_succ by lia. cbn [nth words_value].
      cbn [List.length] in L. rewrite <- IH; [|intros j Hj; apply (H (S j)); simpl; lia|lia|lia].
      replace (words_value w m) with ((x + 2 ^ w * words_value w m) / 2 ^ w) at 2.
      2:{ rewrite (Z.mul_comm (2 ^ w)), Z.div_add, Z.div_small by lia. lia. }
      rewrite Z.div_pow2_bits by lia. f_equal. ring.
Qed.
Lemma bit_normalized_any F a i : In F all_fields -> any_rep F a -> 0 <= i < fl_w F * Z.of_nat (fl_n F) ->
  runsd 1 F "F::bit_normalized" [VArr a; VInt i] [VInt (b2z (Z.testbit (value F a) i))] [VArr a; VInt i].
Proof.
  intros H T Hi. destruct (layout_facts F H) as (Ln & Lw & Lt & _).
  assert (Q : 0 <= i / fl_w F < Z.of_nat (fl_n F)).
  { split; [apply Z.div_pos; lia|apply Z.div_lt_upper_bound; lia]. }
  pose proof (Z.mod_pos_bound i (fl_w F) ltac:(lia)) as M.
  apply (call_step _ _ _ _ _ _ _ (bit_normalized_body F H)). intros md fuel Hf.
  unfold b_bit_normalized. evm.
  destruct (Z.eqb_spec (fl_w F) 0); [lia|].
  evm. destruct T as (L & A & T).
  replace (znth a (i / fl_w F)) with (Some (nth (Z.to_nat (i / fl_w F)) a 0)).
  2:{ rewrite <- (Z2Nat.id (i / fl_w F)) at 2 by lia. symmetry. apply znth_nth. lia. }
  rewrite shamt_ok by lia.
  rewrite land1.
  assert (E : Z.odd (Z.shiftr (nth (Z.to_nat (i / fl_w F)) a 0) (i mod fl_w F)) = Z.testbit (value F a) i).
  { rewrite <- Z.bit0_odd, Z.shiftr_spec by lia. rewrite Z.add_0_l. symmetry. unfold value.
    apply words_testbit_any; try lia. intros j Hj. apply A. lia. }
  rewrite E. destruct (Z.testbit (value F a) i); reflexivity.
Qed.
Lemma bit_normalized_every F a i : In F all_fields -> any_rep F a -> 0 <= i ->
  if i <? fl_w F * Z.of_nat (fl_n F)
  then runs F "F::bit_normalized" [VArr a; VInt i] [VInt (b2z (Z.testbit (value F a) i))] [VArr a; VInt i]
  else panics F "F::bit_normalized" [VArr a; VInt i].
Proof.
  intros H A I. destruct (Z.ltb_spec i (fl_w F * Z.of_nat (fl_n F))).
  - eapply runsd_runs; [|apply bit_normalized_any; auto]; lia.
  - eapply panicsd_panics; [|apply bit_normalized_panics; auto]; lia.
Qed.
Lemma bit_every F a i : In F all_fields -> any_rep F a -> 0 <= i ->
  if i <? fl_w F * Z.of_nat (fl_n F)
  then exists a', runs F "F::bit" [VArr a; VInt i] [VInt (b2z (Z.testbit (settled F a) i))] [VArr a'; VInt i] /\
         runs F "F::normalize" [VArr a] [] [VArr a']
  else panics F "F::bit" [VArr a; VInt i].
Proof.
  intros H A I. destruct (Z.ltb_spec i (fl_w F * Z.of_nat (fl_n F))).
  - destruct (settled_runs F a H A) as [R1 _]. exists (to_words F (settled F a)). split; [|eapply runsd_runs; [|exact R1]; lia].
    pose proof (bit_normalized_any F _ i H (settled_any F a H A) ltac:(lia)) as R2. rewrite to_words_value in R2 by auto.
    eapply (runsd_runs 5); [lia|]. apply (call_step _ _ _ _ _ _ _ (same_bit F H)). intros md fuel Hf.
    unfold Src_e221_3.f_bit. evm. callee R1. callee R2. reflexivity.
  - eapply panicsd_panics; [|apply bit_panics; auto]; lia.
Qed.

(** ** Hexadecimal text *)
Lemma hex_every F (up : bool) a out : In F all_fields -> any_rep F a ->
  exists s, runs F (if up then "F::UpperHex::fmt" else "F::LowerHex::fmt") [VArr a; VArr out] [] [VArr a; VArr (out ++ s)%list] /\
    List.length s = (2 * fl_nb F)%nat /\ hex_value up s = Some (settled F a mod 2 ^ written_bits F).
Proof.
  intros H A. pose proof (packed_every_runs F a H A) as R. destruct (bytes_of_facts F a H) as (B1 & B2 & B3).
  exists (hex_text up (rev (bytes_of F a))). split; [|split].
  - eapply (runsd_runs 7); [lia|]. change (if up then "F::UpperHex::fmt" else "F::LowerHex::fmt") with (hexname up).
    apply (call_step _ _ _ _ _ _ _ (hex_body F up H)). intros md fuel Hf.
    unfold run_func, b_hex. cbn [f_params f_body f_rets List.length Nat.eqb combine exec_list].
    destruct (hex_loop F up md (call md no_base (fl_tbl F) fuel) (bytes_of F a) a (VArr (to_words F (settled F a))) out (fl_nb F) H
      B2 0 eq_refl [] ltac:(auto)) as (r' & E).
    cbn [firstn hex_text flat_map] in E. rewrite app_nil_r in E.
    assert (E0 : exec md (call md no_base (fl_tbl F) fuel) (SLet "cpy" (EVar "self")) [("self", VArr a); ("f", VArr out)] =
      Ok [("self", VArr a); ("f", VArr out); ("cpy", VArr a)]) by reflexivity.
    rewrite E0. cbn [bind].
    assert (E1 : exec md (call md no_base (fl_tbl F) fuel) (SCall ["bytes"] "F::packed" [AMut "cpy"]) [("self", VArr a); ("f", VArr out); ("cpy", VArr a)] =
      Ok [("self", VArr a); ("f", VArr out); ("cpy", VArr (to_words F (settled F a))); ("bytes", VArr (bytes_of F a))]).
    { evm. rewrite R by lia. reflexivity. }
    rewrite E1. cbn [bind].
    rewrite (exec_for _ _ _ _ _ _ _ 0 (Z.of_nat (fl_nb F))) by reflexivity.
    rewrite Z.sub_0_r, Nat2Z.id. change (Z.of_nat 0) with 0 in E. rewrite E. reflexivity.
  - rewrite hex_text_len, rev_length, B2; auto. apply rev_bytes, B1.
  - rewrite hex_text_value by exact B1. rewrite B3. reflexivity.
Qed.

(** ** A value and another residue with the same encoding *)
Definition half_power (F : fld) : list Z := to_words F (2 ^ (nbits F - 1)).
Lemma collide_checked : forallb (fun F => is_383 F ||
  ((0 <=? top F (half_power F)) && (top F (half_power F) <=? 2 ^ fl_tb F - 1) && (carry F (half_power F) =? 0) &&
   (let q := 2 ^ (nbits F - 1) * -4 / 2 ^ (fl_w F * Z.of_nat (fl_n F - 1)) in (- 2 ^ 63 <=? q) && (q <? 2 ^ 63)) &&
   (negb (is_521 F) || forallb (fun i => column_carry (-4) (half_power F) i =? column_carry (-4) (half_power F) (S i)) [5; 6; 7]%nat) &&
   (settled F (to_words F (2 ^ (nbits F - 1) * -4)) mod 2 ^ written_bits F =? modulus F - 3 * fl_C F) &&
   negb ((2 ^ (nbits F - 1) * -4 - (modulus F - 3 * fl_C F)) mod modulus F =? 0))) all_fields = true.
Proof. vm_compute. reflexivity. Qed.
Lemma encoding_collides F : In F all_fields -> F <> e383_187 ->
  exists x a y ws a', tight F x /\ computes_small F "mul" x (-4) a /\ value F a = value F x * -4 /\ any_rep F a /\ canonical F y /\
    ~ eqmod F (value F a) (value F y) /\
    runs F "F::packed" [VArr a] [VArr ws] [VArr a'] /\ runs F "F::packed" [VArr y] [VArr ws] [VArr y].
Proof.
  intros H N. pose proof (all_chk _ collide_checked F H) as K. cbv beta in K.
  assert (N3 : is_383 F = false). { revert N. clear -H. intros N. repeat (destruct H as [<-|H]; [try reflexivity; congruence|]). destruct H. }
  rewrite N3 in K. cbn [orb] in K. cbv zeta in K. rewrite !andb_true_iff in K.
  destruct K as [[[[[[K1 K2] K3] [K4 K5]] K6] K7] K8].
  apply Z.leb_le in K1, K2, K4. apply Z.ltb_lt in K5. apply Z.eqb_eq in K3, K7. apply negb_true_iff in K8. apply Z.eqb_neq in K8.
  assert (Vx : value F (half_power F) = 2 ^ (nbits F - 1)) by (apply to_words_value; auto).
  pose proof (nbits_pos F H) as NP. destruct (layout_facts F H) as (_ & _ & _ & C & _). pose proof (modulus_pos F H) as (MP & MC & _).
  assert (Tx : tight F (half_power F)).
  { apply to_words_tight; auto. split; [apply Z.pow_nonneg; lia|]. apply Z.pow_lt_mono_r; lia. }
  assert (Px : produced F (half_power F)).
  { destruct (layout_facts F H) as (_ & _ & _ & _ & LB & _). eapply rep_weaken; [exact Tx|lia|lia]. }
  assert (Ix : is_i32 (-4)) by (unfold is_i32; lia).
  destruct (small_mul_exact F (half_power F) (-4) H Px Ix) as (a & _ & Aa & _ & Ex).
  destruct Ex as [Rs Va].
  { split; [exact K3|]. rewrite Vx. split; [lia|]. intros X. replace (is_521 F) with true in K6 by (rewrite X; reflexivity).
    cbn [forallb orb negb] in K6. rewrite !andb_true_iff in K6.
    destruct K6 as (A1 & A2 & A3 & _). apply Z.eqb_eq in A1, A2, A3. auto. }
  rewrite Vx in Va. assert (Ea : a = to_words F (2 ^ (nbits F - 1) * -4)). { rewrite <- Va. eapply rep_unique; eauto. }
  destruct (tops_small F H) as [_ T4].
  assert (Cy : canonical F (to_words F (modulus F - 3 * fl_C F))) by (apply to_words_canonical; auto; lia).
  exists (half_power F), a, (to_words F (modulus F - 3 * fl_C F)), (bytes_of F a), (to_words F (settled F a)).
  rewrite Vx, Va. split; [exact Tx|]. split; [exact Rs|]. split; [reflexivity|]. split; [exact Aa|]. split; [exact Cy|].
  split; [|split].
  - rewrite to_words_value by auto. intros E. apply K8. apply eqmod_divide in E; auto. apply Z.mod_divide; [lia|].
    destruct E as [q E]. exists (- q). lia.
  - eapply runsd_runs; [|apply packed_every_runs; auto]; lia.
  - assert (Ay : any_rep F (to_words F (modulus F - 3 * fl_C F))) by (apply canonical_normal; auto).
    pose proof (runsd_runs 6 F _ _ _ _ ltac:(lia) (packed_every_runs F _ H Ay)) as R.
    destruct (canonical_folded F _ H Cy) as [_ Sy]. rewrite Sy in R. rewrite to_words_value in R by auto.
    assert (Eb : bytes_of F (to_words F (modulus F - 3 * fl_C F)) = bytes_of F a).
    { unfold bytes_of. rewrite Sy, Ea, K7, to_words_value by auto. f_equal. apply Z.mod_small.
      destruct (written_facts F H) as (_ & _ & W). assert (2 ^ nbits F <= 2 ^ written_bits F) by (apply Z.pow_le_mono_r; lia).
      unfold modulus in *. lia. }
    rewrite Eb in R. exact R.
Qed.

(** ** Word-wise and / or *)
Lemma zipw_value_any (g : Z -> Z -> Z) (bg : bool -> bool -> bool) w :
  0 <= w -> (forall u v i, 0 <= i -> Z.testbit (g u v) i = bg (Z.testbit u i) (Z.testbit v i)) ->
  (forall x y, 0 <= x < 2 ^ w -> 0 <= y < 2 ^ w -> 0 <= g x y < 2 ^ w) ->
  forall n a b, List.length a = S n -> List.length b = S n ->
  (forall i, (i < n)%nat -> 0 <= nth i a 0 < 2 ^ w) -> (forall i, (i < n)%nat -> 0 <= nth i b 0 < 2 ^ w) ->
  words_value w (zipw g (S n) a b) = g (words_value w a) (words_value w b).
Proof.
  intros Hw Hg Hb. induction n as [|n IH]; intros [|x a] [|y b] La Lb Ha Hbb; try discriminate.
  - destruct a, b; try discriminate. unfold zipw. cbn [seq map nth words_value].
    rewrite !Z.mul_0_r, !Z.add_0_r. reflexivity.
  - specialize (IH a b ltac:(simpl in *; lia) ltac:(simpl in *; lia) ltac:(intros i Hi; apply (Ha (S i)); lia) ltac:(intros i Hi; apply (Hbb (S i)); lia)).
    unfold zipw in *. remember (S n) as m. cbn [seq map words_value]. rewrite <- seq_shift, map_map. cbn [nth]. rewrite IH.
    pose proof (Ha 0%nat ltac:(lia)). pose proof (Hbb 0%nat ltac:(lia)). cbn [nth] in *.
    rewrite (bitop_split g bg) by auto. reflexivity.
Qed.
Lemma signed_bits (g : Z -> Z -> Z) k x y : 0 <= k -> g 0 0 = 0 -> g 0 (-1) = 0 \/ g 0 (-1) = -1 -> g (-1) 0 = 0 \/ g (-1) 0 = -1 -> g (-1) (-1) = -1 ->
  (forall u v, Z.shiftr (g u v) k = g (Z.shiftr u k) (Z.shiftr v k)) ->
  - 2 ^ k <= x <= 2 ^ k - 1 -> - 2 ^ k <= y <= 2 ^ k - 1 -> - 2 ^ k <= g x y <= 2 ^ k - 1.
Proof.
  intros Hk G0 G1 G2 G3 Gs Hx Hy. assert (P : 0 < 2 ^ k) by (apply Z.pow_pos_nonneg; lia).
  assert (D : forall z, - 2 ^ k <= z <= 2 ^ k - 1 <-> Z.shiftr z k = 0 \/ Z.shiftr z k = -1).
  { intros z. rewrite Z.shiftr_div_pow2 by lia. pose proof (Z.div_mod z (2 ^ k) ltac:(lia)). pose proof (Z.mod_pos_bound z (2 ^ k) P).
    split; [intros|intros [E|E]; rewrite E in *; lia].
    assert (-2 < z / 2 ^ k < 1) by nia. lia. }
  rewrite D in *. rewrite Gs. destruct Hx as [-> | ->], Hy as [-> | ->]; auto.
Qed.
Lemma zipw_any F g bg a b : In F all_fields -> (forall u v i, 0 <= i -> Z.testbit (g u v) i = bg (Z.testbit u i) (Z.testbit v i)) ->
  (forall w x y, 0 <= w -> 0 <= x < 2 ^ w -> 0 <= y < 2 ^ w -> 0 <= g x y < 2 ^ w) ->
  (forall x y, - 2 ^ 63 <= x <= 2 ^ 63 - 1 -> - 2 ^ 63 <= y <= 2 ^ 63 - 1 -> - 2 ^ 63 <= g x y <= 2 ^ 63 - 1) ->
  any_rep F a -> any_rep F b -> any_rep F (zipw g (fl_n F) a b) /\ value F (zipw g (fl_n F) a b) = g (value F a) (value F b).
Proof.
  intros H Hg Hb Hs (La & Wa & Ta) (Lb & Wb & Tb). destruct (layout_facts F H) as (Ln & Lw & _). split.
  - split; [unfold zipw; rewrite map_length, seq_length; auto|]. split.
    + intros i Hi. rewrite zipw_nth by lia. apply Hb; [lia|apply Wa; lia|apply Wb; lia].
    + unfold top. rewrite zipw_nth by lia. apply Hs; [exact Ta|exact Tb].
  - unfold value. replace (fl_n F) with (S (fl_n F - 1)) by lia.
    apply (zipw_value_any g bg); auto; try lia. intros. apply Hb; lia.
Qed.
Lemma land_any F a b : In F all_fields -> any_rep F a -> any_rep F b ->
  exists o, runsd 1 F "F::normalized_bitand" [VArr a; VArr b] [] [VArr o; VArr b] /\ any_rep F o /\ value F o = Z.land (value F a) (value F b).
Proof.
  intros H A B'. exists (zipw Z.land (fl_n F) a b). split; [apply bitand_words; auto; [apply A|apply B']|].
  apply (zipw_any F Z.land andb); auto; [intros; apply Z.land_spec|intros; apply land_bound; lia|].
  intros x y. apply signed_bits; try lia; auto; [intros; apply Z.shiftr_land].
Qed.
Lemma lor_any F a b : In F all_fields -> any_rep F a -> any_rep F b ->
  exists o, runsd 1 F "F::normalized_bitor" [VArr a; VArr b] [] [VArr o; VArr b] /\ any_rep F o /\ value F o = Z.lor (value F a) (value F b).
Proof.
  intros H A B'. exists (zipw Z.lor (fl_n F) a b). split; [apply bitor_words; auto; [apply A|apply B']|].
  apply (zipw_any F Z.lor orb); auto; [intros; apply Z.lor_spec|intros; apply lor_bound; lia|].
  intros x y. apply signed_bits; try lia; auto; [intros; apply Z.shiftr_lor].
Qed.
Lemma bitwise_every F a b : In F all_fields -> any_rep F a -> any_rep F b ->
  (exists o, runs F "F::normalized_bitand" [VArr a; VArr b] [] [VArr o; VArr b] /\ any_rep F o /\ value F o = Z.land (value F a) (value F b)) /\
  (exists o, runs F "F::normalized_bitor" [VArr a; VArr b] [] [VArr o; VArr b] /\ any_rep F o /\ value F o = Z.lor (value F a) (value F b)) /\
  (exists o, runs F "F::normalize_self_bitand" [VArr a; VArr b] [] [VArr o; VArr b] /\ any_rep F o /\ value F o = Z.land (settled F a) (value F b)) /\
  (exists o, runs F "F::normalize_self_bitor" [VArr a; VArr b] [] [VArr o; VArr b] /\ any_rep F o /\ value F o = Z.lor (settled F a) (value F b)) /\
  exists b', runs F "F::normalize" [VArr b] [] [VArr b'] /\
  (exists o, runs F "F::normalize_bitand" [VArr a; VArr b] [] [VArr o; VArr b'] /\ any_rep F o /\ value F o = Z.land (settled F a) (settled F b)) /\
  (exists o, runs F "F::normalize_bitor" [VArr a; VArr b] [] [VArr o; VArr b'] /\ any_rep F o /\ value F o = Z.lor (settled F a) (settled F b)).
Proof.
  intros H A B'. destruct (settled_runs F a H A) as [Ra _]. destruct (settled_runs F b H B') as [Rb _].
  pose proof (settled_any F a H A) as Aa. pose proof (settled_any F b H B') as Ab.
  assert (SA : forall x o, any_rep F x -> runsd 1 F "F::normalized_bitand" [VArr (to_words F (settled F a)); VArr x] [] [VArr o; VArr x] ->
    runsd 5 F "F::normalize_self_bitand" [VArr a; VArr x] [] [VArr o; VArr x]).
  { intros x o _ R. apply (call_step _ _ _ _ _ _ _ (same_nsbitand F H)). intros md fuel Hf.
    unfold Src_e221_3.f_normalize_self_bitand. evm. callee Ra. callee R. reflexivity. }
  assert (SO : forall x o, any_rep F x -> runsd 1 F "F::normalized_bitor" [VArr (to_words F (settled F a)); VArr x] [] [VArr o; VArr x] ->
    runsd 5 F "F::normalize_self_bitor" [VArr a; VArr x] [] [VArr o; VArr x]).
  { intros x o _ R. apply (call_step _ _ _ _ _ _ _ (same_nsbitor F H)). intros md fuel Hf.
    unfold Src_e221_3.f_normalize_self_bitor. evm. callee Ra. callee R. reflexivity. }
  split. { destruct (land_any F a b H A B') as (o & R & X). exists o. split; auto. eapply runsd_runs; [|exact R]; lia. }
  split. { destruct (lor_any F a b H A B') as (o & R & X). exists o. split; auto. eapply runsd_runs; [|exact R]; lia. }
  split. { destruct (land_any F _ b H Aa B') as (o & R & X). exists o. rewrite to_words_value in X by auto. split; auto.
    eapply runsd_runs; [|apply SA; eauto]; lia. }
  split. { destruct (lor_any F _ b H Aa B') as (o & R & X). exists o. rewrite to_words_value in X by auto. split; auto.
    eapply runsd_runs; [|apply SO; eauto]; lia. }
  exists (to_words F (settled F b)). split; [eapply runsd_runs; [|exact Rb]; lia|]. split.
  - destruct (land_any F _ _ H Aa Ab) as (o & R & X). exists o. rewrite !to_words_value in X by auto. split; auto.
    apply SA in R; auto. eapply (runsd_runs 6); [lia|]. apply (call_step _ _ _ _ _ _ _ (same_nbitand F H)). intros md fuel Hf.
    unfold Src_e221_3.f_normalize_bitand. evm. callee Rb. callee R. reflexivity.
  - destruct (lor_any F _ _ H Aa Ab) as (o & R & X). exists o. rewrite !to_words_value in X by auto. split; auto.
    apply SO in R; auto. eapply (runsd_runs 6); [lia|]. apply (call_step _ _ _ _ _ _ _ (same_nbitor F H)). intros md fuel Hf.
    unfold Src_e221_3.f_normalize_bitor. evm. callee Rb. callee R. reflexivity.
Qed.

(** ** Random elements: which draws give which element *)
Lemma in_range_words F ds p : In F all_fields -> runs F "F::modulus" [] [VArr p] [] -> (fl_n F <= List.length ds)%nat ->
  (forall i, (i < fl_n F)%nat -> 0 <= nth i ds 0 < nth i p 0) -> rand_words F ds = firstn (fl_n F) ds.
Proof.
  intros H Rp L Bd. destruct (const_body F H) as (_ & _ & _ & B4 & _). destruct (lits_ok F H) as (_ & _ & _ & L4).
  rewrite L4 in B4. assert (p = to_words F (modulus F)) as ->.
  { pose proof (runsd_runs 1 F _ _ _ _ ltac:(lia) (const_runs F _ _ B4) Debug) as E. pose proof (Rp Debug). congruence. }
  apply (nth_ext _ _ 0 0); [unfold rand_words; rewrite map_length, seq_length, firstn_length_le; auto|].
  intros i Hi. unfold rand_words in Hi. rewrite map_length, seq_length in Hi.
  rewrite rand_nth by auto. unfold mword. rewrite Z.mod_small by (apply Bd; auto).
  rewrite <- (firstn_skipn (fl_n F) ds) at 1. apply app_nth1. rewrite firstn_length_le; auto.
Qed.
Lemma rand_draws F ds p : In F all_fields -> runs F "F::modulus" [] [VArr p] [] -> (fl_n F <= List.length ds)%nat ->
  (forall i, (i < fl_n F)%nat -> 0 <= nth i ds 0 < nth i p 0) ->
  runs F "F::rand" [VArr ds] [VArr (firstn (fl_n F) ds)] [VArr (skipn (fl_n F) ds)].
Proof.
  intros H Rp L Bd. rewrite <- (in_range_words F ds p) by auto. eapply runsd_runs; [|apply rand_runs; auto]. lia.
Qed.
Lemma rand_distinct F ds ds' p a b os os' : In F all_fields -> runs F "F::modulus" [] [VArr p] [] ->
  (fl_n F <= List.length ds)%nat -> (fl_n F <= List.length ds')%nat ->
  (forall i, (i < fl_n F)%nat -> 0 <= nth i ds 0 < nth i p 0 /\ 0 <= nth i ds' 0 < nth i p 0) ->
  runs F "F::rand" [VArr ds] [VArr a] os -> runs F "F::rand" [VArr ds'] [VArr b] os' ->
  (eqmod F (value F a) (value F b) <-> firstn (fl_n F) ds = firstn (fl_n F) ds').
Proof.
  intros H Rp L L' Bd Ra Rb.
  pose proof (rand_draws F ds p H Rp L ltac:(intros; apply Bd; auto)) as Ra'.
  pose proof (rand_draws F ds' p H Rp L' ltac:(intros; apply Bd; auto)) as Rb'.
  assert (Ea : a = firstn (fl_n F) ds) by (pose proof (Ra Debug); pose proof (Ra' Debug); congruence).
  assert (Eb : b = firstn (fl_n F) ds') by (pose proof (Rb Debug); pose proof (Rb' Debug); congruence).
  rewrite <- Ea, <- Eb.
  destruct (rand_claim F ds H L) as (o & R1 & C1). destruct (rand_claim F ds' H L') as (o' & R2 & C2).
  assert (a = o) as -> by (pose proof (Ra Debug); pose proof (R1 Debug); congruence).
  assert (b = o') as -> by (pose proof (Rb Debug); pose proof (R2 Debug); congruence).
  split; [|congruence]. intros E. unfold eqmod in E. rewrite !canonical_mod in E by auto.
  destruct C1 as [T1 _], C2 as [T2 _]. rewrite (rep_unique F _ _ o H T1), (rep_unique F _ _ o' H T2). congruence.
Qed.

(** ** How many elements rand can return *)
Fixpoint unrank (p : list Z) (k : Z) : list Z := match p with [] => [] | m :: p => (k mod m) :: unrank p (k / m) end.
Fixpoint rank (p l : list Z) : Z := match p, l with m :: p, x :: l => x + m * rank p l | _, _ => 0 end.
Definition product (p : list Z) : Z := fold_right Z.mul 1 p.
Lemma product_pos p : Forall (fun m => 0 < m) p -> 0 < product p.
Proof. induction 1; cbn [product fold_right]; [lia|]. fold (product l). nia. Qed.
Lemma unrank_box p : Forall (fun m => 0 < m) p -> forall k, 0 <= k < product p ->
  Forall2 (fun x m => 0 <= x < m) (unrank p k) p /\ rank p (unrank p k) = k.
Proof.
  induction 1 as [|m p Hm Hp IH]; intros k Hk; cbn [product fold_right unrank rank] in *; [split; [constructor|lia]|].
  fold (product p) in Hk. pose proof (product_pos p Hp) as PP. pose proof (Z.mod_pos_bound k m Hm) as MB.
  assert (Q : 0 <= k / m < product p) by (split; [apply Z.div_pos; lia|apply Z.div_lt_upper_bound; lia]).
  destruct (IH _ Q) as [B E]. split; [constructor; auto|]. rewrite E. pose proof (Z.div_mod k m ltac:(lia)). lia.
Qed.
Lemma rank_box p l : Forall2 (fun x m => 0 <= x < m) l p -> 0 <= rank p l < product p /\ unrank p (rank p l) = l.
Proof.
  induction 1 as [|x m l p Hx Hp IH]; cbn [product fold_right unrank rank]; [split; [lia|reflexivity]|].
  fold (product p). destruct IH as [B E]. split; [nia|].
  replace (x + m * rank p l) with (x + rank p l * m) by ring.
  rewrite Z.mod_add, Z.mod_small, Z.div_add, Z.div_small, Z.add_0_l, E by lia. reflexivity.
Qed.
Lemma count_checked : forallb (fun F => forallb (fun m => 0 <? m) (to_words F (modulus F)) &&
  (modulus F <=? 2 ^ fl_tb F * (modulus F - product (to_words F (modulus F))))) all_fields = true.
Proof. vm_compute. reflexivity. Qed.
Lemma rand_count F p : In F all_fields -> runs F "F::modulus" [] [VArr p] [] ->
  (exists f : Z -> list Z,
    (forall l, (exists (ds : list Z) os, (fl_n F <= List.length ds)%nat /\ runs F "F::rand" [VArr ds] [VArr l] os) <->
       exists k, 0 <= k < fold_right Z.mul 1 p /\ f k = l) /\
    (forall k k', 0 <= k < fold_right Z.mul 1 p -> 0 <= k' < fold_right Z.mul 1 p ->
       eqmod F (value F (f k)) (value F (f k')) -> k = k')) /\
  modulus F <= 2 ^ fl_tb F * (modulus F - fold_right Z.mul 1 p).
Proof.
  intros H Rp. pose proof Rp as Rp0. destruct (const_body F H) as (_ & _ & _ & B4 & _). destruct (lits_ok F H) as (_ & _ & _ & L4).
  rewrite L4 in B4. assert (p = to_words F (modulus F)) as ->.
  { pose proof (runsd_runs 1 F _ _ _ _ ltac:(lia) (const_runs F _ _ B4) Debug) as E. pose proof (Rp Debug). congruence. }
  pose proof (all_chk _ count_checked F H) as K. cbv beta in K. apply andb_true_iff in K as [K1 K2]. apply Z.leb_le in K2.
  change (fold_right Z.mul 1 (to_words F (modulus F))) with (product (to_words F (modulus F))). split; [|exact K2].
  set (p := to_words F (modulus F)) in *.
  assert (Pp : Forall (fun m => 0 < m) p).
  { apply Forall_forall. intros x Hx. rewrite forallb_forall in K1. apply Z.ltb_lt, K1, Hx. }
  assert (Lp : List.length p = fl_n F) by (apply (modulus_tight F H)).
  assert (Q : forall l, Forall2 (fun x m => 0 <= x < m) l p <->
    List.length l = fl_n F /\ forall i, (i < fl_n F)%nat -> 0 <= nth i l 0 < nth i p 0).
  { intros l. rewrite <- Lp. clear. split.
    - induction 1 as [|x m l p Hx Hp [IH1 IH2]]; cbn [List.length]; [split; [reflexivity|lia]|].
      split; [congruence|]. intros [|i] Hi; cbn [nth]; [lia|]. apply IH2. lia.
    - revert l. induction p as [|m p IH]; intros [|x l] [E Hl]; try discriminate; constructor.
      + apply (Hl 0%nat). cbn [List.length]. lia.
      + apply IH. split; [cbn [List.length] in E; lia|]. intros i Hi. apply (Hl (S i)). cbn [List.length]. lia. }
  assert (R : forall l, (exists (ds : list Z) os, (fl_n F <= List.length ds)%nat /\ runs F "F::rand" [VArr ds] [VArr l] os) <->
    Forall2 (fun x m => 0 <= x < m) l p).
  { intros l. rewrite Q. split.
    - intros (ds & os & L & R). destruct (rand_claim F ds H L) as (o & R1 & [(Lo & _) _]).
      assert (l = o) as -> by (pose proof (R Debug); pose proof (R1 Debug); congruence). split; [exact Lo|].
      intros i Hi. apply (proj1 (rand_range F o H Lo)); eauto.
    - intros [Ll Hl]. apply (rand_range F l H Ll). intros p' i Rp' Hi.
      assert (p' = p) as -> by (pose proof (Rp Debug); pose proof (Rp' Debug); congruence). auto. }
  exists (unrank p). split.
  - intros l. rewrite R. split.
    + intros B. destruct (rank_box p l B) as [B1 B2]. exists (rank p l). auto.
    + intros (k & Hk & <-). apply unrank_box; auto.
  - intros k k' Hk Hk' E. destruct (unrank_box p Pp k Hk) as [B1 B2]. destruct (unrank_box p Pp k' Hk') as [B1' B2'].
    rewrite <- B2, <- B2'. f_equal.
    apply Q in B1 as [L1 B1], B1' as [L1' B1'].
    pose proof (rand_draws F (unrank p k) _ H Rp ltac:(lia) B1) as R1. pose proof (rand_draws F (unrank p k') _ H Rp ltac:(lia) B1') as R1'.
    rewrite (firstn_all2 (unrank p k)) in R1 by lia. rewrite (firstn_all2 (unrank p k')) in R1' by lia.
    pose proof (rand_distinct F (unrank p k) (unrank p k') _ _ _ _ _ H Rp ltac:(lia) ltac:(lia) ltac:(intros i Hi; split; [apply B1|apply B1']; exact Hi) R1 R1') as X.
    apply X in E. rewrite (firstn_all2 (unrank p k)), (firstn_all2 (unrank p k')) in E by lia. exact E.
Qed.

(** ** Normalising twice *)
Lemma settled_normal F a : In F all_fields -> any_rep F a -> normal F (to_words F (settled F a)).
Proof.
  intros H A. split; [apply settled_any; auto|]. pose proof (settled_any F a H A) as As.
  pose proof (settled_range F a H A) as Rg. pose proof (modulus_pos F H) as (MP & _).
  destruct (layout_facts F H) as (_ & _ & _ & C & _). pose proof (two_n F H).
  unfold folded. rewrite (carry_value F _ _ _ H As), to_words_value by auto. unfold modulus in *.
  destruct (Z_lt_ge_dec (settled F a) 0).
  - replace (settled F a / 2 ^ nbits F) with (-1); [lia|].
    apply (Z.div_unique _ _ _ (settled F a + 2 ^ nbits F)); [left; lia|ring].
  - rewrite Z.div_small by lia. lia.
Qed.
Lemma normalize_twice F a : In F all_fields -> any_rep F a ->
  exists a1 a2, runs F "F::normalize" [VArr a] [] [VArr a1] /\ runs F "F::normalize" [VArr a1] [] [VArr a2] /\
    canonical F a2 /\ value F a2 = settled F a mod modulus F /\
    (eqmod F (value F a2) (value F a) <-> - fl_C F <= folded F a).
Proof.
  intros H A. destruct (settled_runs F a H A) as [R _]. pose proof (settled_normal F a H A) as N.
  exists (to_words F (settled F a)), (canon F (to_words F (settled F a))).
  split; [eapply runsd_runs; [|exact R]; lia|]. split; [eapply runsd_runs; [|apply normalize_normal; auto]; lia|].
  split; [apply canon_canonical; auto|]. rewrite canon_value, to_words_value by auto. split; [reflexivity|].
  rewrite <- settled_keeps by auto. unfold eqmod. rewrite Z.mod_mod by (pose proof (modulus_pos F H); lia). tauto.
Qed.
Lemma normalized_observers F a a1 : In F all_fields -> produced F a -> runs F "F::normalize" [VArr a] [] [VArr a1] ->
  normal F a1 /\ eqmod F (value F a1) (value F a) /\
  (exists ws a', runs F "F::packed" [VArr a1] [VArr ws] [VArr a'] /\ is_bytes ws /\ List.length ws = fl_nb F /\ le_value ws = value F a mod modulus F) /\
  (forall i, 0 <= i < fl_w F * Z.of_nat (fl_n F) -> exists a', runs F "F::bit" [VArr a1; VInt i] [VInt (b2z (Z.testbit (value F a mod modulus F) i))] [VArr a'; VInt i]) /\
  (forall b b1, produced F b -> runs F "F::normalize" [VArr b] [] [VArr b1] ->
     exists r a' b', runs F "F::normalize_eq" [VArr a1; VArr b1] [r] [VArr a'; VArr b'] /\ truth (eqmod F (value F a) (value F b)) r) /\
  (forall (up : bool) out, exists s, runs F (if up then "F::UpperHex::fmt" else "F::LowerHex::fmt") [VArr a1; VArr out] [] [VArr a1; VArr (out ++ s)%list] /\
     List.length s = (2 * fl_nb F)%nat /\ hex_value up s = Some (value F a mod modulus F)).
Proof.
  intros H P R. destruct (produced_low F a H P) as [A L].
  assert (Q : forall x x1, produced F x -> runs F "F::normalize" [VArr x] [] [VArr x1] -> normal F x1 /\ eqmod F (value F x1) (value F x)).
  { intros x x1 Px Rx. destruct (produced_low F x H Px) as [Ax Lx]. destruct (settled_runs F x H Ax) as [R' _].
    assert (x1 = to_words F (settled F x)) as ->.
    { pose proof (runsd_runs 4 F _ _ _ _ ltac:(lia) R' Debug). pose proof (Rx Debug). congruence. }
    split; [apply settled_normal; auto|]. rewrite to_words_value by auto. apply settled_keeps; auto. }
  destruct (Q a a1 P R) as [N E]. split; [exact N|]. split; [exact E|].
  assert (Em : value F a1 mod modulus F = value F a mod modulus F) by exact E.
  split. { exists (encode F (value F a1)), (canon F a1). split; [eapply runsd_runs; [|apply packed_runs; auto]; lia|].
    split; [apply encode_bytes|]. split; [apply encode_len|]. rewrite encode_value by auto. exact Em. }
  split. { intros i Hi. exists (canon F a1). rewrite <- Em. eapply runsd_runs; [|apply bit_runs; auto]; lia. }
  split. { intros b b1 Pb Rb. destruct (Q b b1 Pb Rb) as [Nb Eb]. destruct (normalize_eq_runs F a1 b1 H N Nb) as (r & Rr & T).
    exists r, (canon F a1), (canon F b1). split; [eapply runsd_runs; [|exact Rr]; lia|]. eapply truth_iff; [|exact T].
    unfold eqmod in *. rewrite E, Eb. tauto. }
  intros up out. destruct (hex_claim F up a1 out H N) as (s & Rs & Ls & Vs). exists s. rewrite <- Em. auto.
Qed.
