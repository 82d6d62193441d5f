(** The claims about buffers, equality, bits, masks, constants, random elements
    and hexadecimal text in their final form. *)
From Coq Require Import ZArith List String Lia Bool.
From Verif Require Import Lang Poly Kernel Fields Kfacts Ops Words Codec Normalize Methods Surface Forms Format Power Arith Encoding.
From Verif Require Src_e221_3.
Import ListNotations.
Local Open Scope string_scope.
Local Open Scope Z_scope.

(** ** Buffers *)
Definition packany_ks (F : fld) : kspec :=
  mkks [dF F (- B F - 1) (B F); dBytes (fl_nb F) true] 1 8 1 (repeat (0, 255) (fl_nb F)) (XC 0) [].
Lemma packany_checked : forallb (fun F => has "F::pack_normalized" F && kcheck (fn F "F::pack_normalized") (packany_ks F)) all_fields = true.
Proof. vm_cast_no_check (eq_refl true). Qed.
Lemma pack_any F a bs : In F all_fields -> any_rep F a -> is_bytes bs -> (fl_nb F <= List.length bs)%nat ->
  exists a' ws, runs F "F::pack" [VArr a; VArr bs] [] [VArr a'; VArr (ws ++ skipn (fl_nb F) bs)%list] /\
    is_bytes ws /\ List.length ws = fl_nb F.
Proof.
  intros H A Bs L. destruct (normalize_runs F a H A) as (o & R1 & Ro & _).
  pose proof (all_chk _ packany_checked F H) as K. apply andb_true_iff in K as [Hh K].
  destruct (kernel_sound _ _ K [VArr o; VArr bs]) as (l0 & ws & E & R & W & _).
  { repeat constructor; [apply rep_arg; auto|apply bytes_arg; auto]. }
  injection E as <-. apply Forall2_repeat_bytes in W as [W1 W2].
  exists o, ws. split; [|split; auto].
  assert (R2 : runsd 1 F "F::pack_normalized" [VArr o; VArr bs] [] [VArr o; VArr (ws ++ skipn (fl_nb F) bs)%list]).
  { eapply body_runs; [apply has_fn; exact Hh|]. intros md cl. rewrite R. simpl. rewrite W2. reflexivity. }
  eapply (runsd_runs 5); [lia|]. apply (call_step _ _ _ _ _ _ _ (same_pack F H)). intros md fuel Hf.
  unfold Src_e221_3.f_pack. evm. callee R1. callee R2. reflexivity.
Qed.
Lemma buffers_claim F a l bs : In F all_fields -> any_rep F a -> is_i64s F l -> is_bytes bs ->
  if (List.length bs <? fl_nb F)%nat
  then panics F "F::pack" [VArr a; VArr bs] /\ panics F "F::unpack" [VArr l; VArr bs] /\ panics F "F::unpacked" [VArr bs]
  else (exists rs os, runs F "F::pack" [VArr a; VArr bs] rs os) /\ (exists rs os, runs F "F::unpack" [VArr l; VArr bs] rs os) /\
       (exists rs os, runs F "F::unpacked" [VArr bs] rs os).
Proof.
  intros H A I Bs. destruct (Nat.ltb_spec (List.length bs) (fl_nb F)) as [L|L].
  - split; [eapply panicsd_panics; [|apply pack_short; auto]; lia|].
    split; [eapply panicsd_panics; [|apply unpack_short; auto]; lia|].
    eapply panicsd_panics; [|apply unpacked_short; auto]; lia.
  - destruct (pack_any F a bs H A Bs L) as (a' & ws & R & _).
    destruct (unpack_claim F l bs H I Bs L) as (o & R1 & R2 & _).
    split; [eexists _, _; exact R|]. split; eexists _, _; eassumption.
Qed.

(** ** Equality *)
Lemma canon_eqmod F a : In F all_fields -> eqmod F (value F (canon F a)) (value F a).
Proof. intros H. unfold eqmod. rewrite canon_value by auto. apply Z.mod_mod. pose proof (modulus_pos F H). lia. Qed.
Lemma eq_claim F a b : In F all_fields -> normal F a -> normal F b ->
  exists r a' b', runs F "F::normalize_eq" [VArr a; VArr b] [r] [VArr a'; VArr b'] /\
    truth (eqmod F (value F a) (value F b)) r /\
    canonical F a' /\ eqmod F (value F a') (value F a) /\ canonical F b' /\ eqmod F (value F b') (value F b).
Proof.
  intros H A Bb. destruct (normalize_eq_runs F a b H A Bb) as (r & R & T). exists r, (canon F a), (canon F b).
  split; [eapply runsd_runs; [|exact R]; lia|]. split; auto. auto 6 using canon_canonical, canon_eqmod.
Qed.
Lemma self_eq_claim F a b : In F all_fields -> normal F a -> canonical F b ->
  exists r a', runs F "F::normalize_self_eq" [VArr a; VArr b] [r] [VArr a'; VArr b] /\
    truth (eqmod F (value F a) (value F b)) r /\ canonical F a' /\ eqmod F (value F a') (value F a).
Proof.
  intros H A C. assert (L : List.length b = fl_n F) by apply C.
  destruct (normalize_self_eq_runs F a b H A L) as (r & R & T). exists r, (canon F a).
  split; [eapply runsd_runs; [|exact R]; lia|]. split; [|auto using canon_canonical, canon_eqmod].
  rewrite <- (canon_id F b H C) in T. unfold truth in *. rewrite canon_eq in T by auto. exact T.
Qed.

(** ** Bits *)
Lemma bit_claim F a i : In F all_fields -> normal F a -> 0 <= i ->
  if i <? fl_w F * Z.of_nat (fl_n F)
  then exists a', runs F "F::bit" [VArr a; VInt i] [VInt (b2z (Z.testbit (value F a mod modulus F) i))] [VArr a'; VInt i] /\
         canonical F a' /\ eqmod F (value F a') (value F a)
  else panics F "F::bit" [VArr a; VInt i].
Proof.
  intros H N I. destruct (Z.ltb_spec i (fl_w F * Z.of_nat (fl_n F))).
  - exists (canon F a). split; [eapply runsd_runs; [|apply bit_runs; auto]; lia|]. auto using canon_canonical, canon_eqmod.
  - eapply panicsd_panics; [|apply bit_panics; auto; apply N]; lia.
Qed.
Lemma bit_normalized_claim F a i : In F all_fields -> canonical F a -> 0 <= i ->
  if i <? fl_w F * Z.of_nat (fl_n F)
  then runs F "F::bit_normalized" [VArr a; VInt i] [VInt (b2z (Z.testbit (value F a) i))] [VArr a; VInt i]
  else panics F "F::bit_normalized" [VArr a; VInt i].
Proof.
  intros H C I. destruct (Z.ltb_spec i (fl_w F * Z.of_nat (fl_n F))).
  - eapply runsd_runs; [|apply bit_normalized_runs; auto; apply C]; lia.
  - eapply panicsd_panics; [|apply bit_normalized_panics; auto; apply canonical_normal; auto]; lia.
Qed.
Lemma bits_enough F : In F all_fields -> nbits F <= fl_w F * Z.of_nat (fl_n F).
Proof. intros H. apply Z.leb_le. revert F H. apply all_chk. vm_compute. reflexivity. Qed.

(** ** Masks *)
Lemma fill_claim F a b : In F all_fields -> List.length a = fl_n F ->
  exists m, runs F "F::filled" [VInt (b2z b)] [VArr m] [VInt (b2z b)] /\
    runs F "Mask::filled" [VInt (b2z b)] [VArr m] [VInt (b2z b)] /\
    runs F "F::fill" [VArr a; VInt (b2z b)] [] [VArr m; VInt (b2z b)] /\
    runs F "Mask::fill" [VArr a; VInt (b2z b)] [] [VArr m; VInt (b2z b)] /\
    m = repeat (if b then -1 else 0) (fl_n F).
Proof.
  intros H L. exists (repeat (mask_of b) (fl_n F)).
  split; [eapply runsd_runs; [|apply filled_runs; cbn; auto]; lia|].
  split; [eapply runsd_runs; [|apply filled_runs; cbn; auto]; lia|].
  split; [eapply runsd_runs; [|apply fill_runs; cbn; auto]; lia|].
  split; [eapply runsd_runs; [|apply fill_runs; cbn; auto]; lia|]. reflexivity.
Qed.
Lemma mask_claim F x b m : In F all_fields -> List.length x = fl_n F ->
  runs F "Mask::filled" [VInt (b2z b)] [VArr m] [VInt (b2z b)] ->
  runs F "F::normalized_bitand" [VArr x; VArr m] [] [VArr (if b then x else repeat 0 (fl_n F)); VArr m].
Proof.
  intros H L R. assert (Em : m = repeat (mask_of b) (fl_n F)).
  { destruct (fill_claim F x b H L) as (m' & _ & R' & _ & _ & E). pose proof (R Debug). pose proof (R' Debug). subst m'.
    unfold mask_of. congruence. }
  subst m. rewrite <- (zipw_mask (fl_n F) x b L). eapply runsd_runs; [|apply bitand_words; auto; apply repeat_length]. lia.
Qed.
Lemma select_claim F x y b m m' : In F all_fields -> List.length x = fl_n F -> List.length y = fl_n F ->
  runs F "Mask::filled" [VInt (b2z b)] [VArr m] [VInt (b2z b)] ->
  runs F "Mask::filled" [VInt (b2z (negb b))] [VArr m'] [VInt (b2z (negb b))] ->
  exists x' y', runs F "F::normalized_bitand" [VArr x; VArr m] [] [VArr x'; VArr m] /\
    runs F "F::normalized_bitand" [VArr y; VArr m'] [] [VArr y'; VArr m'] /\
    runs F "F::normalized_bitor" [VArr x'; VArr y'] [] [VArr (if b then x else y); VArr y'].
Proof.
  intros H Lx Ly R R'. pose proof (mask_claim F x b m H Lx R) as M. pose proof (mask_claim F y (negb b) m' H Ly R') as M'.
  eexists _, _. split; [exact M|]. split; [exact M'|].
  assert (Lz : List.length (repeat 0 (fl_n F)) = fl_n F) by apply repeat_length.
  destruct b; cbn [negb].
  - rewrite <- (zipw_or_0_r (fl_n F) x Lx) at 2. eapply runsd_runs; [|apply bitor_words; auto]. lia.
  - rewrite <- (zipw_or_0_l (fl_n F) y Ly) at 2. eapply runsd_runs; [|apply bitor_words; auto]. lia.
Qed.
Lemma self_mask_claim F x b m : In F all_fields -> normal F x ->
  runs F "Mask::filled" [VInt (b2z b)] [VArr m] [VInt (b2z b)] ->
  exists o, runs F "F::normalize_self_bitand" [VArr x; VArr m] [] [VArr o; VArr m] /\ canonical F o /\
    value F o = if b then value F x mod modulus F else 0.
Proof.
  intros H N R. destruct (canon_canonical F x H) as [T Lt]. assert (L : List.length (canon F x) = fl_n F) by apply T.
  pose proof (mask_claim F (canon F x) b m H L R) as M.
  assert (Em : m = repeat (mask_of b) (fl_n F)).
  { destruct (fill_claim F (canon F x) b H L) as (m' & _ & R' & _ & _ & E). pose proof (R Debug). pose proof (R' Debug). subst m'.
    unfold mask_of. congruence. }
  exists (if b then canon F x else repeat 0 (fl_n F)). split.
  - eapply (runsd_runs 5); [lia|]. apply nsbitand_step; auto. subst m. rewrite <- (zipw_mask (fl_n F) (canon F x) b L).
    apply bitand_words; auto. apply repeat_length.
  - destruct b; [split; [split; auto|apply canon_value; auto]|].
    assert (Ez : repeat 0 (fl_n F) = to_words F 0).
    { clear -H. repeat (destruct H as [<-|H]; [vm_compute; reflexivity|]). destruct H. }
    pose proof (modulus_pos F H) as MP.
    rewrite Ez. split; [split|]; [apply to_words_tight; auto|rewrite to_words_value by auto; lia|apply to_words_value; auto].
    pose proof (nbits_pos F H). split; [lia|]. apply Z.pow_pos_nonneg; lia.
Qed.
Lemma bitwise_claim F a b : In F all_fields -> normal F a -> normal F b ->
  (exists o b', runs F "F::normalize_bitand" [VArr a; VArr b] [] [VArr o; VArr b'] /\ tight F o /\
     value F o = Z.land (value F a mod modulus F) (value F b mod modulus F) /\ canonical F b' /\ eqmod F (value F b') (value F b)) /\
  (exists o b', runs F "F::normalize_bitor" [VArr a; VArr b] [] [VArr o; VArr b'] /\ tight F o /\
     value F o = Z.lor (value F a mod modulus F) (value F b mod modulus F) /\ canonical F b' /\ eqmod F (value F b') (value F b)).
Proof.
  intros H A Bb. split.
  - destruct (nbitand_runs F a b H A Bb) as (o & R & T & V). exists o, (canon F b).
    split; [eapply runsd_runs; [|exact R]; lia|]. auto using canon_canonical, canon_eqmod.
  - destruct (nbitor_runs F a b H A Bb) as (o & R & T & V). exists o, (canon F b).
    split; [eapply runsd_runs; [|exact R]; lia|]. auto using canon_canonical, canon_eqmod.
Qed.

(** ** The forms that do not normalise, or only the receiver *)
Lemma zipw_combine (g : Z -> Z -> Z) n a b : List.length a = n -> List.length b = n ->
  zipw g n a b = map (fun w => g (fst w) (snd w)) (combine a b).
Proof.
  intros La Lb. apply (nth_ext _ _ (g 0 0) (g 0 0)).
  - unfold zipw. rewrite !map_length, seq_length, combine_length. lia.
  - intros i Hi. unfold zipw in Hi. rewrite map_length, seq_length in Hi.
    change (g 0 0) with ((fun w : Z * Z => g (fst w) (snd w)) (0, 0)) at 2. rewrite map_nth, combine_nth by lia. cbn [fst snd].
    rewrite (nth_indep _ _ 0) by (unfold zipw; rewrite map_length, seq_length; lia). now apply zipw_nth.
Qed.
Lemma words_claim F x y : In F all_fields -> List.length x = fl_n F -> List.length y = fl_n F ->
  runs F "F::normalized_bitand" [VArr x; VArr y] [] [VArr (map (fun w => Z.land (fst w) (snd w)) (combine x y)); VArr y] /\
  runs F "F::normalized_bitor" [VArr x; VArr y] [] [VArr (map (fun w => Z.lor (fst w) (snd w)) (combine x y)); VArr y].
Proof.
  intros H Lx Ly. rewrite <- (zipw_combine Z.land (fl_n F)), <- (zipw_combine Z.lor (fl_n F)) by auto.
  split; (eapply runsd_runs; [|apply bitand_words || apply bitor_words; auto]; lia).
Qed.
Lemma self_bitwise_claim F a b : In F all_fields -> normal F a -> tight F b ->
  (exists o, runs F "F::normalize_self_bitand" [VArr a; VArr b] [] [VArr o; VArr b] /\ tight F o /\
     value F o = Z.land (value F a mod modulus F) (value F b)) /\
  (exists o, runs F "F::normalize_self_bitor" [VArr a; VArr b] [] [VArr o; VArr b] /\ tight F o /\
     value F o = Z.lor (value F a mod modulus F) (value F b)).
Proof.
  intros H A Tb. destruct (canon_canonical F a H) as [Ta _]. split.
  - destruct (bitand_runs F _ _ H Ta Tb) as (o & R & To & Vo). exists o. rewrite canon_value in Vo by auto. split; auto.
    eapply (runsd_runs 5); [lia|]. apply nsbitand_step; auto.
  - destruct (bitor_runs F _ _ H Ta Tb) as (o & R & To & Vo). exists o. rewrite canon_value in Vo by auto. split; auto.
    eapply (runsd_runs 5); [lia|]. apply nsbitor_step; auto.
Qed.
Lemma pack_normalized_claim F a bs : In F all_fields -> tight F a -> is_bytes bs ->
  if (List.length bs <? fl_nb F)%nat then panics F "F::pack_normalized" [VArr a; VArr bs]
  else exists ws, runs F "F::pack_normalized" [VArr a; VArr bs] [] [VArr a; VArr (ws ++ skipn (fl_nb F) bs)%list] /\
    is_bytes ws /\ List.length ws = fl_nb F /\ le_value ws = value F a.
Proof.
  intros H T Bs. destruct (Nat.ltb_spec (List.length bs) (fl_nb F)) as [L|L].
  - pose proof (pack_normalized_short F a bs H (tight_any F a H T) Bs L) as P. eapply panicsd_panics; [|exact P]. lia.
  - destruct (pack_normalized_ok F a bs H T Bs L) as (ws & R & W). exists ws. split; auto. eapply runsd_runs; [|exact R]. lia.
Qed.

(** ** Constants *)
Lemma constants_claim F : In F all_fields ->
  exists z o m p, runs F "F::zero" [] [VArr z] [] /\ runs F "F::one" [] [VArr o] [] /\
    runs F "F::m_one" [] [VArr m] [] /\ runs F "F::modulus" [] [VArr p] [] /\
    canonical F z /\ value F z = 0 /\ canonical F o /\ value F o = 1 /\
    canonical F m /\ value F m = modulus F - 1 /\ tight F p /\ value F p = modulus F.
Proof.
  intros H. destruct (const_body F H) as (B1 & B2 & B3 & B4 & _). destruct (lits_ok F H) as (L1 & L2 & L3 & L4).
  rewrite L1 in B1. rewrite L2 in B2. rewrite L3 in B3. rewrite L4 in B4.
  pose proof (modulus_pos F H) as MP. destruct (layout_facts F H) as (_ & _ & _ & C & _).
  assert (Q : forall z, 0 <= z < modulus F -> canonical F (to_words F z)).
  { intros z Hz. split; [apply to_words_tight; auto; unfold modulus in *; lia|rewrite to_words_value by auto; lia]. }
  exists (to_words F 0), (to_words F 1), (to_words F (modulus F - 1)), (to_words F (modulus F)).
  split; [eapply runsd_runs; [|apply const_runs; exact B1]; lia|].
  split; [eapply runsd_runs; [|apply const_runs; exact B2]; lia|].
  split; [eapply runsd_runs; [|apply const_runs; exact B3]; lia|].
  split; [eapply runsd_runs; [|apply const_runs; exact B4]; lia|].
  rewrite !to_words_value by auto.
  split; [apply Q; lia|]. split; [reflexivity|]. split; [apply Q; lia|]. split; [reflexivity|].
  split; [apply Q; lia|]. split; [reflexivity|]. split; [apply modulus_tight; auto|reflexivity].
Qed.
(** nbits() and nbytes() are the bit and byte lengths of p *)
Lemma sizes_claim F : In F all_fields ->
  exists k n, runs F "F::nbits" [] [VInt k] [] /\ runs F "F::nbytes" [] [VInt n] [] /\
    2 ^ (k - 1) <= modulus F < 2 ^ k /\ 256 ^ (n - 1) <= modulus F < 256 ^ n.
Proof.
  intros H. exists (nbits F), (Z.of_nat (fl_nb F)). destruct (const_body F H) as (_ & _ & _ & _ & B5 & B6).
  split; [eapply runsd_runs; [|apply int_runs; exact B5]; lia|].
  split; [eapply runsd_runs; [|apply int_runs; exact B6]; lia|].
  assert (K : (2 ^ (nbits F - 1) <=? modulus F) && (modulus F <? 2 ^ nbits F) &&
    (256 ^ (Z.of_nat (fl_nb F) - 1) <=? modulus F) && (modulus F <? 256 ^ Z.of_nat (fl_nb F)) = true).
  { revert F H B5 B6. intros F H _ _. revert F H. apply all_chk. vm_compute. reflexivity. }
  rewrite !andb_true_iff in K. lia.
Qed.

(** ** Random elements: [ds] is what the generator yields *)
Lemma rand_claim F ds : In F all_fields -> (fl_n F <= List.length ds)%nat ->
  exists o, runs F "F::rand" [VArr ds] [VArr o] [VArr (skipn (fl_n F) ds)] /\ canonical F o.
Proof.
  intros H L. exists (rand_words F ds). split; [eapply runsd_runs; [|apply rand_runs; auto]; lia|apply rand_canonical; auto].
Qed.
Lemma rand_range F l : In F all_fields -> List.length l = fl_n F ->
  (exists (ds : list Z) os, (fl_n F <= List.length ds)%nat /\ runs F "F::rand" [VArr ds] [VArr l] os) <->
  (forall p i, runs F "F::modulus" [] [VArr p] [] -> (i < fl_n F)%nat -> 0 <= nth i l 0 < nth i p 0).
Proof.
  intros H L. destruct (const_body F H) as (_ & _ & _ & B4 & _). destruct (lits_ok F H) as (_ & _ & _ & L4).
  rewrite L4 in B4. assert (Rm : runs F "F::modulus" [] [VArr (to_words F (modulus F))] []).
  { eapply runsd_runs; [|apply const_runs; exact B4]; lia. }
  split.
  - intros (ds & os & G & R) p i Rp Hi. assert (p = to_words F (modulus F)) as ->.
    { pose proof (Rp Debug). pose proof (Rm Debug). congruence. }
    assert (E : l = rand_words F ds).
    { pose proof (runsd_runs 1 F _ _ _ _ ltac:(lia) (rand_runs F ds H G) Debug) as E. pose proof (R Debug). congruence. }
    subst l. rewrite rand_nth by auto. apply Z.mod_pos_bound. apply (mword_pos F i); auto.
  - intros Hl. destruct (proj2 (rand_image F l H L)) as (ds & Ld & E).
    { intros i Hi. apply Hl; auto. }
    exists ds, [VArr (skipn (fl_n F) ds)]. split; [lia|]. rewrite <- E. eapply runsd_runs; [|apply rand_runs; auto; lia]. lia.
Qed.

(** ** Hexadecimal text *)
Lemma hex_claim F (up : bool) a out : In F all_fields -> normal F a ->
  exists s, runs F (if up then "F::UpperHex::fmt" else "F::LowerHex::fmt") [VArr a; VArr out] [] [VArr a; VArr (out ++ s)%list] /\
    List.length s = (2 * fl_nb F)%nat /\ hex_value up s = Some (value F a mod modulus F).
Proof.
  intros H N. destruct (hex_ok F up a out H N) as (s & R & L & V). exists s.
  split; [eapply runsd_runs; [|exact R]; lia|]. auto.
Qed.

(** ** Observers leave the residue alone *)
Lemma observers_claim F a : In F all_fields -> normal F a ->
  exists a', canonical F a' /\ value F a' = value F a mod modulus F /\
  runs F "F::normalize" [VArr a] [] [VArr a'] /\
  (exists r, runs F "F::packed" [VArr a] [r] [VArr a']) /\
  (forall bs, is_bytes bs -> (fl_nb F <= List.length bs)%nat -> exists r, runs F "F::pack" [VArr a; VArr bs] [] [VArr a'; r]) /\
  (forall i, 0 <= i < nbits F -> exists r, runs F "F::bit" [VArr a; VInt i] [r] [VArr a'; VInt i]) /\
  (forall b, normal F b -> exists r b', runs F "F::normalize_eq" [VArr a; VArr b] [r] [VArr a'; VArr b'] /\
     canonical F b' /\ value F b' = value F b mod modulus F) /\
  (forall b, canonical F b -> exists r, runs F "F::normalize_self_eq" [VArr a; VArr b] [r] [VArr a'; VArr b]) /\
  (forall out, exists r, runs F "F::LowerHex::fmt" [VArr a; VArr out] [] [VArr a; r]) /\
  (forall out, exists r, runs F "F::UpperHex::fmt" [VArr a; VArr out] [] [VArr a; r]).
Proof.
  intros H N. exists (canon F a). split; [apply canon_canonical; auto|]. split; [apply canon_value; auto|].
  split; [eapply runsd_runs; [|apply normalize_normal; auto]; lia|].
  split; [eexists; eapply runsd_runs; [|apply packed_runs; auto]; lia|].
  split; [intros bs Bs L; eexists; eapply runsd_runs; [|apply pack_runs; auto]; lia|].
  split. { intros i Hi. pose proof (bits_enough F H). eexists. eapply runsd_runs; [|apply bit_runs; auto; lia]; lia. }
  split. { intros b Nb. destruct (normalize_eq_runs F a b H N Nb) as (r & R & _). exists r, (canon F b).
    split; [eapply runsd_runs; [|exact R]; lia|]. auto using canon_canonical, canon_value. }
  split. { intros b C. destruct (normalize_self_eq_runs F a b H N) as (r & R & _); [apply C|]. exists r.
    eapply runsd_runs; [|exact R]; lia. }
  split; intros out.
  - destruct (hex_claim F false a out H N) as (s & R & _). eexists. exact R.
  - destruct (hex_claim F true a out H N) as (s & R & _). eexists. exact R.
Qed.
