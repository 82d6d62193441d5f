(** Proofs about programs over the library (Machine.v). *)
From Coq Require Import ZArith List String Lia Bool.
From Verif Require Import Lang Poly Kernel Fields Kfacts Ops Words Codec Normalize Methods Surface Forms Format Power
  Arith Encoding Observe NumTheory Roots Safe Machine SmallMul Doubling.
Import ListNotations.
Local Open Scope string_scope.
Local Open Scope Z_scope.

(** ** Lists *)
Section Lists.
  Context {A B : Type} (R : A -> B -> Prop).
  Lemma F2_nth l l' i a : Forall2 R l l' -> nth_error l i = Some a -> exists b, nth_error l' i = Some b /\ R a b.
  Proof. intros H. revert i. induction H as [|x y l l' Rx H IH]; intros [|i] E; try discriminate; simpl in *; eauto. injection E as <-. eauto. Qed.
  Lemma F2_snoc l l' a b : Forall2 R l l' -> R a b -> Forall2 R (l ++ [a])%list (l' ++ [b])%list.
  Proof. intros. apply Forall2_app; auto. Qed.
  Lemma F2_replace l l' i a b : Forall2 R l l' -> R a b -> Forall2 R (replace l i a) (replace l' i b).
  Proof. intros H Rb. revert i. induction H; intros [|i]; simpl; auto. Qed.
End Lists.
Lemma known_nth m i : known m i = true -> exists b, nth_error m i = Some b.
Proof. unfold known. destruct (nth_error m i); [eauto|discriminate]. Qed.
Lemma ready_nth m i : ready m i = true -> nth_error m i = Some MReady.
Proof. unfold ready. destruct (nth_error m i) as [[]|]; congruence. Qed.
Lemma bytesb_ok bs : bytesb bs = true -> is_bytes bs.
Proof. unfold bytesb, is_bytes. rewrite forallb_forall, Forall_forall. intros H x Hx. specialize (H x Hx). lia. Qed.
Lemma i32b_ok k : i32b k = true -> is_i32 k.
Proof. unfold i32b, is_i32. lia. Qed.

Lemma canonical_produced F a : In F all_fields -> canonical F a -> produced F a.
Proof. intros H [T _]. pose proof (B_pos F H). destruct (layout_facts F H) as (_ & _ & _ & C & _). unfold B in *. eapply rep_weaken; [exact T|lia|lia]. Qed.
Lemma summand_produced F a : In F all_fields -> summand F a -> produced F a.
Proof. intros H T. pose proof (B_pos F H). destruct (layout_facts F H) as (_ & _ & _ & C & _). unfold B in *. eapply rep_weaken; [exact T|lia|lia]. Qed.
Lemma tight_produced F a : In F all_fields -> tight F a -> produced F a.
Proof. intros H T. apply summand_produced, tight_summand; auto. Qed.
Lemma sum_produced F a : In F all_fields -> rep F (-1) (2 * 2 ^ fl_tb F) a -> produced F a.
Proof. intros H T. pose proof (B_pos F H). destruct (layout_facts F H) as (_ & _ & _ & C & _). unfold B in *. eapply rep_weaken; [exact T|lia|lia]. Qed.
Lemma diff_produced F a : In F all_fields -> rep F (- 2 ^ fl_tb F - 1) (2 ^ fl_tb F) a -> produced F a.
Proof. intros H T. pose proof (B_pos F H). destruct (layout_facts F H) as (_ & _ & _ & C & _). unfold B in *. eapply rep_weaken; [exact T|lia|lia]. Qed.
Lemma small_produced F a : In F all_fields -> rep F (-1) (2 ^ fl_tb F) a -> produced F a.
Proof. intros H T. pose proof (B_pos F H). destruct (layout_facts F H) as (_ & _ & _ & C & _). unfold B in *. eapply rep_weaken; [exact T|lia|lia]. Qed.
Lemma marked_any F b a : In F all_fields -> marked F b a -> any_rep F a.
Proof. intros H. destruct b; cbn [marked]; auto; [now apply produced_any|now apply wide_any]. Qed.

Lemma is_383_eq F : In F all_fields -> is_383 F = true -> F = e383_187.
Proof. intros H X. repeat (destruct H as [<-|H]; [first [vm_compute in X; discriminate X|reflexivity]|]). destruct H. Qed.

(** ** C25: no allowed program panics *)
Section Safe25.
  Variable F : fld.
  Hypothesis HF : In F all_fields.
  Let ok m (s : state) := Forall2 (marked F) m (vars s).
  Let good (c : instr) s m' := exists s', (forall md, step md F c s = Ok s') /\ ok m' s'.

  Lemma var_ok m s i b : ok m s -> nth_error m i = Some b -> exists a, var s i = Ok a /\ marked F b a.
  Proof. intros H E. destruct (F2_nth _ _ _ _ _ H E) as (a & Ea & M). exists a. unfold var. rewrite Ea. auto. Qed.
  Lemma var_known m s i : ok m s -> known m i = true -> exists a, var s i = Ok a /\ any_rep F a.
  Proof. intros H K. apply known_nth in K as (b & E). destruct (var_ok m s i b H E) as (a & V & M). exists a. split; auto. eapply marked_any; eauto. Qed.
  Lemma var_ready m s i : ok m s -> ready m i = true -> exists a, var s i = Ok a /\ produced F a.
  Proof. intros H K. apply ready_nth in K. exact (var_ok m s i MReady H K). Qed.
  Lemma var_mulable m s i : ok m s -> mulable m i = true -> exists a, var s i = Ok a /\ wide F a.
  Proof.
    intros H K. unfold mulable in K. destruct (nth_error m i) as [k|] eqn:E; [|discriminate]. destruct (var_ok m s i k H E) as (a & V & M).
    exists a. split; auto. destruct k; [apply produced_wide; auto|exact M|discriminate].
  Qed.

  Lemma computes_of_produced op a b : In op ["mul"; "div"] -> produced F a -> produced F b ->
    exists o, (exists b', runs F ("F::" ++ op ++ "_assign(&F)") [VArr a; VArr b] [] [VArr o; b']) /\ produced F o /\
      exists o' outs, runs F ("(&F)::" ++ op ++ "(&F)") [VArr a; VArr b] [VArr o'] outs /\ produced F o'.
  Proof.
    intros Ho A Bb.
    assert (T : exists d, has ("F::" ++ op ++ "_assign(&F)") F = true /\ has ("(&F)::" ++ op ++ "(&F)") F = true /\
      In ("F::" ++ op ++ "_assign(&F)", (2, 0)%nat) (kernels ++ combined) /\ In ("(&F)::" ++ op ++ "(&F)", (2, 1)%nat) (kernels ++ combined) /\ d = 0%nat).
    { exists 0%nat. destruct Ho as [<-|[<-|[]]]; (split; [revert HF; clear; intros H; by_field H|]; split; [revert HF; clear; intros H; by_field H|]; split; [cbn; tauto|]; split; [cbn; tauto|reflexivity]). }
    destruct T as (_ & H1 & H2 & I1 & I2 & _).
    destruct (bin_safe F _ 0 a b HF I1 H1 A Bb) as (r1 & o1 & R1 & _ & L1 & G1 & M1).
    destruct (bin_safe F _ 1 a b HF I2 H2 A Bb) as (r2 & o2 & R2 & G2 & L2 & _ & _).
    destruct r1; [|discriminate]. destruct o1 as [|x [|y [|]]]; try discriminate. inversion G1 as [|? ? (o & -> & Po) _]; subst.
    destruct r2 as [|z [|]]; try discriminate. inversion G2 as [|? ? (o' & -> & Po') _]; subst.
    exists o. split; [eauto|]. split; auto. exists o', o2. auto.
  Qed.
  Lemma unary_of_produced f g a : In (f, g) [("F::square", "F::squared"); ("F::invert", "F::inverted")] -> produced F a ->
    exists o, runs F f [VArr a] [] [VArr o] /\ produced F o /\ exists o' outs, runs F g [VArr a] [VArr o'] outs /\ produced F o'.
  Proof.
    intros Ho A.
    assert (T : has f F = true /\ has g F = true /\ In (f, (1, 0)%nat) (kernels ++ combined) /\ In (g, (1, 1)%nat) (kernels ++ combined)).
    { destruct Ho as [E|[E|[]]]; injection E as <- <-; (split; [revert HF; clear; intros H; by_field H|]; split; [revert HF; clear; intros H; by_field H|]; split; cbn; tauto). }
    destruct T as (H1 & H2 & I1 & I2).
    destruct (un_safe F _ 0 a HF I1 H1 A) as (r1 & o1 & R1 & _ & L1 & G1 & M1).
    destruct (un_safe F _ 1 a HF I2 H2 A) as (r2 & o2 & R2 & G2 & L2 & _ & _).
    destruct r1; [|discriminate]. destruct o1 as [|x [|]]; try discriminate. inversion G1 as [|? ? (o & -> & Po) _]; subst.
    destruct r2 as [|z [|]]; try discriminate. inversion G2 as [|? ? (o' & -> & Po') _]; subst.
    exists o. split; [eauto|]. split; auto. exists o', o2. auto.
  Qed.
  Lemma fresh_of_produced f a : In f ["F::legendre"; "F::sqrt"] -> produced F a ->
    exists o outs, runs F f [VArr a] [VArr o] outs /\ produced F o.
  Proof.
    intros Ho A.
    assert (T : has f F = true /\ In (f, (1, 1)%nat) (kernels ++ combined)).
    { destruct Ho as [<-|[<-|[]]]; (split; [revert HF; clear; intros H; by_field H|cbn; tauto]). }
    destruct T as (H2 & I2). destruct (un_safe F _ 1 a HF I2 H2 A) as (r2 & o2 & R2 & G2 & L2 & _ & _).
    destruct r2 as [|z [|]]; try discriminate. inversion G2 as [|? ? (o' & -> & Po') _]; subst. exists o', o2. auto.
  Qed.

  Lemma mul_wide a b : wide F a -> wide F b -> exists o, computes F "mul" a b o /\ produced F o.
  Proof.
    intros A Bb. destruct (mul_runs F a b HF A Bb) as (o & R & Ro). exists o.
    split; [apply (computes_intro F 1); [auto|cbn; tauto|lia|exact R]|now apply fresh_produced'].
  Qed.
  Lemma square_wide a : wide F a -> exists o, computes_unary F "F::square" "F::squared" a o /\ produced F o.
  Proof.
    intros A. destruct (square_runs F a HF A) as (o & R & Ro). exists o.
    split; [now apply computes_square_intro|now apply fresh_produced'].
  Qed.
  Lemma smul_mark a k : produced F a -> is_i32 k -> Z.abs k <= 2 ^ (61 - fl_tb F) ->
    exists o, computes_small F "mul" a k o /\ marked F (if Z.abs k <=? 2 ^ (room F - 2) then MWide else MRaw) o.
  Proof.
    intros A K1 K2. destruct (Z.leb_spec (Z.abs k) (2 ^ (room F - 2))) as [L|L].
    - destruct (smul_room_runs F a k HF A L) as (o & R & P). exists o. split; [|exact P]. apply (computes_small_intro F 1); [auto|cbn; tauto|lia|exact R].
    - destruct (smul_runs F a k HF A K1 K2) as (o & R & P). exists o. split; [|exact P]. apply (computes_small_intro F 1); [auto|cbn; tauto|lia|exact R].
  Qed.
  Lemma new_ok m s c f args o outs b : ok m s -> runs F f args [VArr o] outs -> marked F b o ->
    (forall md, step md F c s = new_var s (rust_call md (fl_tbl F) f args)) -> good c s (m ++ [b])%list.
  Proof.
    intros H R M E. exists (mkst (vars s ++ [o])%list (seen s)). split; [intros md; rewrite E, (R md); reflexivity|].
    apply F2_snoc; auto.
  Qed.
  Lemma set_ok m s c i f args o rets outs b : ok m s -> runs F f args rets (VArr o :: outs) -> marked F b o ->
    (forall md, step md F c s = set_var s i (rust_call md (fl_tbl F) f args)) -> good c s (replace m i b).
  Proof.
    intros H R M E. exists (mkst (replace (vars s) i o) (seen s)). split; [intros md; rewrite E, (R md); reflexivity|].
    apply F2_replace; auto.
  Qed.
  Lemma see_ok m s c i f args v o outs b : ok m s -> runs F f args [v] (VArr o :: outs) -> marked F b o ->
    (forall md, step md F c s = see s i (rust_call md (fl_tbl F) f args)) -> good c s (replace m i b).
  Proof.
    intros H R M E. exists (mkst (replace (vars s) i o) (seen s ++ [v])%list). split; [intros md; rewrite E, (R md); reflexivity|].
    apply F2_replace; auto.
  Qed.

  Ltac conds := repeat match goal with
    | H : (if ?c then _ else None) = Some _ |- _ => destruct c eqn:?; [|discriminate H]
    | H : _ && _ = true |- _ => apply andb_true_iff in H as [? ?]
    | H : Some _ = Some _ |- _ => injection H as <-
    end.
  Ltac getvars := repeat match goal with
    | G : ok ?m ?s, K : known ?m ?i = true |- _ => destruct (var_known m s i G K) as (?a & ?V & ?A); clear K
    | G : ok ?m ?s, K : mulable ?m ?i = true |- _ => destruct (var_mulable m s i G K) as (?a & ?V & ?A); clear K
    | G : ok ?m ?s, K : ready ?m ?i = true |- _ => destruct (var_ready m s i G K) as (?a & ?V & ?A); apply ready_nth in K
    end.
  Ltac sv := intros md; cbn [step]; repeat match goal with V : var _ _ = _ |- _ => rewrite V; clear V end; cbn [bind]; reflexivity.

  Lemma step_safe c m m' s : allowed F c m = Some m' -> ok m s -> good c s m'.
  Proof.
    intros E H. destruct c; cbn [allowed] in E.
    - injection E as <-. destruct (constants_claim F HF) as (z & o & n & p & R1 & R2 & R3 & R4 & C1 & _ & C2 & _ & C3 & _ & C4 & _).
      destruct c; [eapply (new_ok _ _ _ _ _ _ _ MReady H R1)|eapply (new_ok _ _ _ _ _ _ _ MReady H R2)|eapply (new_ok _ _ _ _ _ _ _ MReady H R3)|
        eapply (new_ok _ _ _ _ _ _ _ MReady H R4)]; try sv; cbn [marked]; auto using canonical_produced, tight_produced.
    - conds. destruct (unpack_claim F (to_words F 0) bs HF) as (o & _ & R & S1 & S2); auto using zero_words, bytesb_ok.
      { now apply Nat.leb_le. }
      eapply new_ok; [exact H|exact R| |sv]. cbn [marked].
      destruct (is_383 F) eqn:X; [apply summand_produced; auto; apply S2|apply tight_produced; auto; apply S1].
      + now apply is_383_eq.
      + intros ->. vm_compute in X. discriminate X.
    - conds. destruct (rand_claim F ds HF) as (o & R & C); [now apply Nat.leb_le|].
      eapply new_ok; [exact H|exact R| |sv]. now apply canonical_produced.
    - destruct o; conds; getvars.
      + destruct (add_claim F a0 a HF) as (o & [_ R] & _ & P); auto. eapply new_ok; [exact H|exact R| |sv]. now apply sum_produced.
      + destruct (sub_claim F a0 a HF) as (o & [_ R] & _ & _ & P); auto. eapply new_ok; [exact H|exact R| |sv]. now apply diff_produced.
      + destruct (mul_wide a0 a) as (o & [_ R] & P); auto. eapply new_ok; [exact H|exact R| |sv]. exact P.
      + destruct (computes_of_produced "div" a0 a) as (o & _ & _ & o' & outs & R & P); auto; [cbn; tauto|]. eapply new_ok; [exact H|exact R| |sv]. exact P.
    - destruct o; conds; getvars.
      + destruct (add_claim F a0 a HF) as (o & [R _] & _ & P); auto. eapply set_ok; [exact H|exact R| |sv]. now apply sum_produced.
      + destruct (sub_claim F a0 a HF) as (o & [R _] & _ & _ & P); auto. eapply set_ok; [exact H|exact R| |sv]. now apply diff_produced.
      + destruct (mul_wide a0 a) as (o & [R _] & P); auto. eapply set_ok; [exact H|exact R| |sv]. exact P.
      + destruct (computes_of_produced "div" a0 a) as (o & (b' & R) & P & _); auto; [cbn; tauto|]. eapply set_ok; [exact H|exact R| |sv]. exact P.
    - destruct o; conds; getvars.
      + destruct (small_claim F a k HF) as ((o & [_ R] & _ & P) & _); auto using i32b_ok. eapply new_ok; [exact H|exact R| |sv]. now apply small_produced.
      + destruct (small_claim F a k HF) as (_ & (o & [_ R] & _ & P)); auto using i32b_ok. eapply new_ok; [exact H|exact R| |sv]. now apply small_produced.
      + destruct (smul_mark a k) as (o & [_ R] & P); auto using i32b_ok; [lia|]. eapply new_ok; [exact H|exact R|exact P|sv].
    - destruct o; conds; getvars.
      + destruct (small_claim F a k HF) as ((o & [R _] & _ & P) & _); auto using i32b_ok. eapply set_ok; [exact H|exact R| |sv]. now apply small_produced.
      + destruct (small_claim F a k HF) as (_ & (o & [R _] & _ & P)); auto using i32b_ok. eapply set_ok; [exact H|exact R| |sv]. now apply small_produced.
      + destruct (smul_mark a k) as (o & [R _] & P); auto using i32b_ok; [lia|]. eapply set_ok; [exact H|exact R|exact P|sv].
    - destruct u; conds; getvars.
      + destruct (square_wide a) as (o & [_ R] & P); auto. eapply new_ok; [exact H|exact R| |sv]. exact P.
      + destruct (unary_of_produced "F::invert" "F::inverted" a) as (o & _ & _ & o' & outs & R & P); auto; [cbn; tauto|].
        eapply new_ok; [exact H|exact R| |sv]. exact P.
    - destruct u; conds; getvars.
      + destruct (square_wide a) as (o & [R _] & P); auto. eapply set_ok; [exact H|exact R| |sv]. exact P.
      + destruct (unary_of_produced "F::invert" "F::inverted" a) as (o & R & P & _); auto; [cbn; tauto|].
        eapply set_ok; [exact H|exact R| |sv]. exact P.
    - conds. getvars. destruct (neg_claim F a HF) as (o & R & _ & P); auto. eapply new_ok; [exact H|exact R| |sv]. now apply sum_produced.
    - conds. getvars. destruct (fresh_of_produced "F::legendre" a) as (o & outs & R & P); auto; [cbn; tauto|]. eapply new_ok; [exact H|exact R| |sv]. exact P.
    - conds. getvars. destruct (fresh_of_produced "F::sqrt" a) as (o & outs & R & P); auto; [cbn; tauto|]. eapply new_ok; [exact H|exact R| |sv]. exact P.
    - conds. getvars. destruct (norm_any F a HF) as (o & R & P); auto. apply (runsd_runs 4) in R; [|lia]. eapply set_ok; [exact H|exact R| |sv]. exact P.
    - conds. getvars. destruct (packed_any F a HF) as (o & ws & R & P & _); auto. apply (runsd_runs 6) in R; [|lia]. eapply see_ok; [exact H|exact R| |sv]. exact P.
    - conds. getvars. destruct (eq_any F a0 a HF) as (r & o & o' & R & P & P'); auto. apply (runsd_runs 6) in R; [|lia].
      exists (mkst (replace (replace (vars s) i o) j o') (seen s ++ [VInt (b2z r)])%list). split.
      + intros md. cbn [step]. rewrite V, V0. cbn [bind]. rewrite (R md). reflexivity.
      + apply F2_replace; [apply F2_replace|]; auto.
    - conds. getvars. destruct (bit_any F a n HF) as (r & o & R & P); auto; [lia|]. apply (runsd_runs 5) in R; [|lia]. eapply see_ok; [exact H|exact R| |sv]. exact P.
    - conds. getvars. destruct (hex_any F upper a [] HF) as (t & R); auto. apply (runsd_runs 7) in R; [|lia].
      exists (mkst (vars s) (seen s ++ [VArr t])%list). split; [|exact H].
      intros md. cbn [step]. rewrite V. cbn [bind]. unfold hexname in R. rewrite (R md). reflexivity.
  Qed.
  Lemma run_safe p : forall m m' s, allowed_all F p m = Some m' -> ok m s -> exists s', (forall md, run md F p s = Ok s') /\ ok m' s'.
  Proof.
    induction p as [|c p IH]; intros m m' s E H; cbn [allowed_all] in E.
    - injection E as <-. exists s. split; auto.
    - destruct (allowed F c m) as [m1|] eqn:E1; [|discriminate].
      destruct (step_safe c m m1 s E1 H) as (s1 & S1 & H1). destruct (IH m1 m' s1 E H1) as (s' & S' & H').
      exists s'. split; auto. intros md. cbn [run]. rewrite S1. cbn [bind]. apply S'.
  Qed.
End Safe25.
Lemma no_panic F p m m' s : In F all_fields -> allowed_all F p m = Some m' -> Forall2 (marked F) m (vars s) ->
  exists s', (forall md, run md F p s = Ok s') /\ Forall2 (marked F) m' (vars s').
Proof. intros H E G. exact (run_safe F H p m m' s E G). Qed.

(** ** C26: disciplined programs compute their ideal values *)
Lemma rep_top_range F lo hi a : rep F lo hi a -> lo <= top F a <= hi.
Proof. intros (_ & _ & T). exact T. Qed.
Lemma hex_byte_checked : forallb (fun up => forallb (fun i =>
  if list_eq_dec Z.eq_dec (hex_fmt up true 8 (Z.of_nat i)) [hex_digit up (Z.of_nat i / 16); hex_digit up (Z.of_nat i mod 16)] then true else false) (seq 0 256)) [true; false] = true.
Proof. vm_compute. reflexivity. Qed.
Lemma hex_byte up b : 0 <= b < 256 -> hex_fmt up true 8 b = [hex_digit up (b / 16); hex_digit up (b mod 16)].
Proof.
  intros Hb. pose proof (proj1 (forallb_forall _ _) hex_byte_checked up) as K.
  assert (In up [true; false]) as I by (destruct up; simpl; auto). specialize (K I). cbn beta in K.
  rewrite forallb_forall in K. specialize (K (Z.to_nat b)). rewrite in_seq in K. specialize (K ltac:(lia)).
  rewrite Z2Nat.id in K by lia. destruct (list_eq_dec _ _ _) as [E|] in K; [exact E|discriminate].
Qed.
Lemma hex_text_digits up n z : hex_text up (rev (le_bytes n z)) = hex_digits up (2 * n) z.
Proof.
  revert z. induction n as [|n IH]; intros z; [reflexivity|].
  replace (2 * S n)%nat with (S (S (2 * n))) by lia. cbn [le_bytes rev hex_digits]. unfold hex_text in *. rewrite flat_map_app, IH.
  cbn [flat_map]. rewrite app_nil_r, hex_byte by (apply Z.mod_pos_bound; lia). rewrite <- app_assoc. cbn [app].
  rewrite !Z.div_div by lia. change (16 * 16) with 256. f_equal.
  assert (E1 : z mod 256 / 16 = z / 16 mod 16).
  { rewrite (Z.div_mod z 256) at 2 by lia. replace (256 * (z / 256) + z mod 256) with (z mod 256 + (16 * (z / 256)) * 16) by ring.
    rewrite Z.div_add by lia. rewrite (Z.mul_comm 16), Z.mod_add by lia. symmetry. apply Z.mod_small. pose proof (Z.mod_pos_bound z 256 ltac:(lia)).
    split; [apply Z.div_pos; lia|apply Z.div_lt_upper_bound; lia]. }
  assert (E2 : (z mod 256) mod 16 = z mod 16).
  { rewrite (Z.div_mod z 256) at 2 by lia. replace (256 * (z / 256) + z mod 256) with (z mod 256 + (16 * (z / 256)) * 16) by ring. now rewrite Z.mod_add by lia. }
  rewrite E1, E2. reflexivity.
Qed.

Section Track.
  Variable F : fld.
  Hypothesis HF : In F all_fields.
  Ltac facts := pose proof (B_pos F HF) as BP; pose proof (small_tops_ok F HF) as ST; destruct (layout_facts F HF) as (_ & _ & _ & Cp & _); unfold B in BP, ST.

  Lemma not251 : is251 F = false -> F <> e251_9.
  Proof. intros E ->. vm_compute in E. discriminate E. Qed.
  Lemma not222 : is222 F = false -> F <> e222_117.
  Proof. intros E ->. vm_compute in E. discriminate E. Qed.
  Lemma not521 : is521 F = false -> F <> e521_1.
  Proof. intros E ->. vm_compute in E. discriminate E. Qed.

  Lemma sh_tight s a : is_tight s = true -> has_shape F s a -> tight F a.
  Proof. destruct s; try discriminate; intros _; [intros [T _]; exact T|auto]. Qed.
  Lemma sh_near s a : is_near s = true -> has_shape F s a -> near F a.
  Proof. destruct s; try discriminate; intros _ S; try exact S; apply tight_near; auto. apply S. Qed.
  Lemma sh_summand s a : is_summand s = true -> has_shape F s a -> summand F a.
  Proof.
    destruct (is_near s) eqn:N; intros K S; [apply near_summand; auto; eapply sh_near; eauto|].
    destruct s; try discriminate; exact S.
  Qed.
  Lemma sh_loose s a : is_loose s = true -> has_shape F s a -> loose F a.
  Proof.
    destruct (is_summand s) eqn:N; intros K S; [apply summand_loose; auto; eapply sh_summand; eauto|].
    destruct s; try discriminate; exact S.
  Qed.
  Lemma sh_nonneg s a : is_nonneg s = true -> has_shape F s a -> rep F 0 (2 ^ 63 - 1) a.
  Proof.
    facts. destruct (is_loose s) eqn:N; intros K S; [eapply rep_weaken; [eapply sh_loose; eauto|lia|lia]|].
    destruct s; try discriminate; [|exact S]. eapply rep_weaken; [exact S|lia|]. pose proof (W_big F HF) as WB. unfold W in WB. lia.
  Qed.
  Lemma sh_normal s a : is_normal s = true -> has_shape F s a -> normal F a.
  Proof.
    facts. destruct (normal_domain F a a HF) as (D1 & D2 & _).
    destruct (is_nonneg s) eqn:N; intros K S; [apply D1; eapply sh_nonneg; eauto|].
    destruct s; try discriminate.
    - apply D2. eapply rep_weaken; [exact S|lia|lia].
    - apply S.
  Qed.
  Lemma sh_produced s a : is_produced s = true -> has_shape F s a -> produced F a.
  Proof.
    facts. destruct (is_loose s) eqn:N; intros K S; [eapply rep_weaken; [eapply sh_loose; eauto|lia|lia]|].
    destruct s; try discriminate; cbn [has_shape] in S; try exact S.
    - eapply rep_weaken; [exact S|lia|lia].
    - eapply rep_weaken; [exact (proj1 S)|lia|lia].
  Qed.
  Lemma sh_wide s a : is_wide s = true -> has_shape F s a -> wide F a.
  Proof.
    destruct (is_produced s) eqn:N; intros K S; [apply produced_wide; auto; eapply sh_produced; eauto|].
    destruct s; try discriminate; [|exact S]. pose proof (W_big F HF) as WB. apply (wide_intro F 0 (2 ^ (fl_tb F + room F))); [exact S| |unfold W; lia].
    facts. lia.
  Qed.
  Lemma sh_any s a : has_shape F s a -> any_rep F a.
  Proof.
    facts. intros S. destruct (is_produced s) eqn:N; [apply produced_any; auto; eapply sh_produced; eauto|].
    destruct s; try discriminate; [apply wide_any; [exact HF|now apply (sh_wide Multiple)]|apply wide_any; [exact HF|exact S]| |exact S].
    cbn [has_shape] in S. eapply rep_weaken; [exact S|lia|lia].
  Qed.
  (** a multiple by at most 2^room of a value below 2^tb in its top word stays in the head room *)
  Lemma multiple_top a k r : tight F a -> any_rep F r -> value F r = value F a * k -> Z.abs k <= 2 ^ room F ->
    wide F r /\ (0 <= k -> rep F 0 (2 ^ (fl_tb F + room F)) r).
  Proof.
    intros T Rr V K. pose proof (lowmod_pos F HF) as LM. pose proof (B_pos F HF) as BP. unfold B in BP.
    destruct (rep_value F _ _ a HF T) as (Ea & Ba). pose proof (rep_top_range F _ _ a T) as Ta.
    destruct (rep_value F _ _ r HF Rr) as (Er & Br). rewrite Er in V.
    assert (R0 : 0 <= room F) by (revert HF; clear; intros H; repeat (destruct H as [<-|H]; [vm_compute; discriminate|]); destruct H).
    assert (T0 : 0 <= fl_tb F) by (revert HF; clear; intros H; repeat (destruct H as [<-|H]; [vm_compute; discriminate|]); destruct H).
    assert (PW : 2 ^ (fl_tb F + room F) = 2 ^ fl_tb F * 2 ^ room F) by (apply Z.pow_add_r; auto).
    assert (Va : 0 <= value F a < lowmod F * 2 ^ fl_tb F) by nia.
    assert (Vr : - (lowmod F * 2 ^ (fl_tb F + room F)) <= value F a * k <= lowmod F * 2 ^ (fl_tb F + room F)) by (rewrite PW; nia).
    rewrite <- V in Vr.
    assert (Tr : - 2 ^ (fl_tb F + room F) <= top F r <= 2 ^ (fl_tb F + room F)) by nia.
    split; [eapply rep_top; [exact Rr|exact Tr]|].
    intros K0. eapply rep_top; [exact Rr|]. split; [|lia]. assert (0 <= value F a * k) by nia. nia.
  Qed.

  Lemma computes_of_add a b o : runsd 1 F "F::add_assign(&F)" [VArr a; VArr b] [] [VArr o; VArr b] -> computes F "add" a b o.
  Proof. apply (computes_intro F 1 "add"); [auto|cbn; tauto|lia]. Qed.

  Lemma op_tracks o s t u a b : op_shape F o s t = Some u -> has_shape F s a -> has_shape F t b ->
    exists r, computes F (op_name o) a b r /\ has_shape F u r /\ eqmod F (value F r) (op_value F o (value F a) (value F b)).
  Proof.
    facts. intros E Sa Sb. pose proof (sh_any _ _ Sa) as Aa. pose proof (sh_any _ _ Sb) as Ab. destruct o; cbn [op_shape] in E; cbn [op_name op_value].
    - injection E as <-. destruct (add_ok F a b HF Aa Ab) as (r & R & Rr & V & P1 & P2). exists r.
      split; [now apply computes_of_add|]. split.
      + destruct (is_tight s && is_tight t) eqn:C1; [|destruct (is_nonneg s && is_nonneg t) eqn:C2].
        * apply andb_true_iff in C1 as [X Y]. apply P2; [exact (sh_tight _ _ X Sa)|exact (sh_tight _ _ Y Sb)].
        * apply andb_true_iff in C2 as [X Y]. eapply rep_weaken; [apply P1|unfold B; lia|unfold B; lia].
          -- apply (rep_top_range F _ _ a (sh_nonneg _ _ X Sa)).
          -- apply (rep_top_range F _ _ b (sh_nonneg _ _ Y Sb)).
        * eapply rep_weaken; [exact Rr|lia|unfold B; lia].
      + rewrite V. apply eqmod_sum; apply folded_eqmod.
    - destruct (is_tight t) eqn:T; [|discriminate]. injection E as <-. pose proof (sh_tight _ _ T Sb) as Tb.
      destruct (sub_claim F a b HF Aa Ab) as (r & R & _ & V & Rr). exists r. split; [exact R|]. split; [|exact (V Tb)].
      destruct (is_normal s && match t with Canonical => true | _ => false end) eqn:C1.
      + apply andb_true_iff in C1 as [X Y]. destruct t; try discriminate.
        destruct (normal_domain F a b HF) as (_ & _ & D). destruct (D (sh_normal _ _ X Sa) Sb) as (d & R' & N).
        assert (r = d). { destruct R as [R _]. destruct R' as [R' _]. specialize (R Debug). specialize (R' Debug). rewrite R in R'. congruence. }
        subst d. split; auto.
      + cbn [has_shape]. now apply diff_produced.
    - assert (X : exists m, mul_safe F a b /\ (u = Loose /\ loose F a /\ loose F b \/ u = Fresh) /\ m = 0).
      { exists 0. destruct (is251 F) eqn:K251.
        - destruct ((is_summand s && is_summand t) || (is_loose s && is_near t) || (is_near s && is_loose t)) eqn:C; [|discriminate]. injection E as <-.
          rewrite !orb_true_iff, !andb_true_iff in C.
          destruct C as [[[X Y]|[X Y]]|[X Y]].
          + pose proof (sh_summand _ _ X Sa). pose proof (sh_summand _ _ Y Sb). split; [now apply safe_sums|]. split; auto. left. auto using summand_loose.
          + pose proof (sh_loose _ _ X Sa). pose proof (sh_near _ _ Y Sb). split; [now apply safe_left|]. split; auto. left. auto using summand_loose, near_summand.
          + pose proof (sh_near _ _ X Sa). pose proof (sh_loose _ _ Y Sb). split; [now apply safe_right|]. split; auto. left. auto using summand_loose, near_summand.
        - pose proof (not251 K251). destruct (is_loose s && is_loose t) eqn:C.
          + injection E as <-. apply andb_true_iff in C as [X Y]. pose proof (sh_loose _ _ X Sa). pose proof (sh_loose _ _ Y Sb).
            split; [now apply safe_loose|]. split; auto.
          + destruct (negb (is222 F) && is_wide s && is_wide t) eqn:C2; [|discriminate]. injection E as <-.
            rewrite !andb_true_iff, negb_true_iff in C2. destruct C2 as [[X Y] Z]. split; [|auto].
            apply safe_wide; auto using not222.
            * exact (sh_wide _ _ Y Sa).
            * exact (sh_wide _ _ Z Sb). }
      destruct X as (_ & M & X & _). destruct (mul_claim F a b HF M) as (r & R & V & Rr & L). exists r. split; [exact R|]. split; [|exact V].
      destruct X as [(-> & La & Lb)| ->]; [exact (L La Lb)|exact Rr].
    - destruct (is251 F) eqn:K251; [discriminate|]. pose proof (not251 K251) as N251.
      assert (X : pow_safe F a /\ pow_safe F b /\ ((F = e222_117 /\ u = Loose) \/ u = Fresh)).
      { destruct (is222 F) eqn:K222.
        - assert (E222 : F = e222_117).
          { apply is_222_eq; auto. revert HF K222. clear. intros H K. repeat (destruct H as [<-|H]; [first [discriminate K|reflexivity]|]). destruct H. }
          destruct (is_loose s && is_loose t) eqn:C; [|discriminate]. injection E as <-. apply andb_true_iff in C as [X Y].
          split; [left; split; auto; exact (sh_loose _ _ X Sa)|]. split; [left; split; auto; exact (sh_loose _ _ Y Sb)|]. auto.
        - pose proof (not222 K222). destruct (is_wide s && is_wide t) eqn:C; [|discriminate]. injection E as <-. apply andb_true_iff in C as [X Y].
          split; [right; split; [auto|split; [auto|]]; exact (sh_wide _ _ X Sa)|].
          split; [right; split; [auto|split; [auto|]]; exact (sh_wide _ _ Y Sb)|]. auto. }
      destruct X as (Pa & Pb & X). pose proof (safe_pow F a HF Pa) as HP. destruct (div_power F a b HP Pa Pb) as (r & R & Pr & Fr & V).
      exists r. split; [apply (computes_intro F 5); [auto|cbn; tauto|lia|exact R]|]. split.
      + destruct X as [[EF ->]| ->]; [|exact Fr]. destruct Pr as [[_ L]|[N _]]; [exact L|contradiction].
      + refine (eq_trans V _). unfold inverse. unfold eqmod. now rewrite Z.mul_mod_idemp_r by (apply modulus_nz; auto).
  Qed.

  Lemma small_tracks o s u a k : small_shape F o s k = Some u -> has_shape F s a ->
    exists r, computes_small F (small_name o) a k r /\ has_shape F u r /\ eqmod F (value F r) (small_value o (value F a) k).
  Proof.
    facts. intros E Sa. pose proof (sh_any _ _ Sa) as Aa. unfold small_shape in E. destruct (i32b k) eqn:K; [|discriminate]. apply i32b_ok in K.
    destruct o; cbn [small_name small_value].
    - injection E as <-. destruct (small_add_ok F a k HF Aa K) as (r & R & Rr & V & P). exists r.
      split; [apply (computes_small_intro F 1); [auto|cbn; tauto|lia|exact R]|]. split.
      + destruct (is_nonneg s && (0 <=? k)) eqn:C.
        * apply andb_true_iff in C as [X Y]. apply P; [apply (rep_top_range F _ _ a (sh_nonneg _ _ X Sa))|lia].
        * cbn [has_shape]. eapply rep_weaken; [exact Rr|lia|unfold B; lia].
      + rewrite V. apply eqmod_sum; [apply folded_eqmod|reflexivity].
    - injection E as <-. destruct (small_sub_ok F a k HF Aa K) as (r & R & Rr & V & P). exists r.
      split; [apply (computes_small_intro F 1); [auto|cbn; tauto|lia|exact R]|]. split.
      + cbn [has_shape]. eapply rep_weaken; [exact Rr|lia|unfold B; lia].
      + rewrite V. apply eqmod_diff; [apply folded_eqmod|reflexivity].
    - destruct (is_tight s && (negb (is521 F) || powb k) && (Z.abs k <? 2 ^ (63 - fl_tb F))) eqn:C; [|discriminate]. injection E as <-.
      rewrite !andb_true_iff, orb_true_iff, negb_true_iff in C. destruct C as [[T N] S]. pose proof (sh_tight _ _ T Sa) as Ta.
      assert (X : exists r, computes_small F "mul" a k r /\ any_rep F r /\ value F r = value F a * k).
      { destruct N as [N|N].
        - destruct (small_mul_ok F a k HF (not521 N) Ta) as (r & R & Rr & V & _); [split; auto; lia|]. exists r.
          split; [apply (computes_small_intro F 1); [auto|cbn; tauto|lia|exact R]|]. auto.
        - unfold powb in N. rewrite !andb_true_iff in N. destruct N as [[N1 N2] N3]. apply Z.eqb_eq in N2. pose proof (Z.log2_nonneg k).
          assert (Q : 2 ^ fl_tb F * 2 ^ Z.log2 k <= 2 ^ 63).
          { rewrite <- N2. assert (TB : 0 <= fl_tb F <= 63) by (revert HF; clear; intros H; repeat (destruct H as [<-|H]; [vm_compute; split; discriminate|]); destruct H).
            replace 63 with (fl_tb F + (63 - fl_tb F)) at 1 by lia. rewrite Z.pow_add_r by lia. apply Z.mul_le_mono_nonneg_l; lia. }
          destruct (power_multiple F a (Z.log2 k) HF Ta ltac:(lia) Q) as (r & R & V & Rr). rewrite <- N2 in R, V. exists r. auto. }
      destruct X as (r & R & Rr & V). exists r. split; [exact R|]. split; [|rewrite V; reflexivity].
      destruct (Z.leb_spec (Z.abs k) (2 ^ room F)) as [K'|K'].
      + destruct (multiple_top a k r Ta Rr V K') as (Y & Z'). destruct (Z.leb_spec 0 k); [now apply Z'|exact Y].
      + destruct (Z.leb_spec 0 k) as [K0|]; [|exact Rr]. cbn [has_shape]. eapply rep_top; [exact Rr|]. split; [|apply (rep_top_range F _ _ r Rr)].
        pose proof (lowmod_pos F HF) as LM. destruct (rep_value F _ _ a HF Ta) as (Ea & Ba). pose proof (rep_top_range F _ _ a Ta) as Tt.
        destruct (rep_value F _ _ r HF Rr) as (Er & Br). assert (0 <= value F a * k) by nia. nia.
  Qed.

  Lemma un_tracks o s u a : un_shape F o s = Some u -> has_shape F s a ->
    exists r, computes_unary F (un_inplace o) (un_fresh o) a r /\ has_shape F u r /\ eqmod F (value F r) (un_value F o (value F a)).
  Proof.
    facts. intros E Sa. pose proof (sh_any _ _ Sa) as Aa. destruct o; cbn [un_shape un_inplace un_fresh un_value] in *.
    - destruct (is_loose s) eqn:L.
      + injection E as <-. destruct (square_claim F a HF) as (r & R & V & Rr & P); [left; eapply sh_loose; eauto|].
        exists r. split; auto. split; auto. apply P. eapply sh_loose; eauto.
      + destruct (is_produced s || (negb (is222 F) && is_wide s)) eqn:P; [|discriminate]. injection E as <-.
        assert (SS : square_safe F a).
        { destruct (is222 F) eqn:K222.
          2: { right; right; split; [now apply not222|]. apply (sh_wide s); auto. apply orb_true_iff in P as [P|P]; [|exact P]. destruct s; try discriminate; reflexivity. }
          cbn [negb andb] in P. rewrite orb_false_r in P. pose proof (sh_produced _ _ P Sa) as Pa.
          destruct (Z_lt_ge_dec (top F a) 0).
          - right; left. eapply rep_top; [exact Pa|]. pose proof (rep_top_range F _ _ a Pa). lia.
          - left. eapply rep_top; [exact Pa|]. pose proof (rep_top_range F _ _ a Pa). lia. }
        destruct (square_claim F a HF SS) as (r & R & V & Rr & _). exists r. auto.
    - destruct (is251 F) eqn:K251; [discriminate|]. pose proof (not251 K251) as N251.
      assert (X : pow_safe F a /\ ((F = e222_117 /\ u = Loose) \/ u = Fresh)).
      { destruct (is222 F) eqn:K222.
        - assert (E222 : F = e222_117).
          { apply is_222_eq; auto. revert HF K222. clear. intros H K. repeat (destruct H as [<-|H]; [first [discriminate K|reflexivity]|]). destruct H. }
          destruct (is_loose s) eqn:C; [|discriminate]. injection E as <-.
          split; [left; split; auto; exact (sh_loose _ _ C Sa)|]. auto.
        - pose proof (not222 K222). destruct (is_wide s) eqn:C; [|discriminate]. injection E as <-.
          split; [right; split; [auto|split; [auto|]]; exact (sh_wide _ _ C Sa)|]. auto. }
      destruct X as (Pa & X). pose proof (safe_pow F a HF Pa) as HP. destruct (invert_power F a HP Pa) as (r & R & Pr & Fr & V).
      exists r. split; [split; [apply (runsd_runs 3)|apply (runsd_runs 4)]; [lia|exact R|lia|now apply inverted_runs]|]. split.
      + destruct X as [[EF ->]| ->]; [|exact Fr]. destruct Pr as [[_ L]|[N _]]; [exact L|contradiction].
      + refine (eq_trans V _). unfold inverse. unfold eqmod. now rewrite Z.mod_mod by (apply modulus_nz; auto).
  Qed.
  Lemma op_value_mod o x y x' y' : eqmod F x x' -> eqmod F y y' -> eqmod F (op_value F o x y) (op_value F o x' y').
  Proof.
    intros X Y. destruct o; cbn [op_value]; [now apply eqmod_sum|now apply eqmod_diff|now apply eqmod_mul|].
    apply eqmod_mul; auto. unfold inverse. unfold eqmod. rewrite !Z.mod_mod by (apply modulus_nz; auto).
    apply eqmod_cong; auto. apply cong_pow. now apply eqmod_cong.
  Qed.
  Lemma un_value_mod o x x' : eqmod F x x' -> eqmod F (un_value F o x) (un_value F o x').
  Proof.
    intros X. destruct o; cbn [un_value]; [now apply eqmod_mul|].
    unfold inverse. unfold eqmod. rewrite !Z.mod_mod by (apply modulus_nz; auto).
    apply eqmod_cong; auto. apply cong_pow. now apply eqmod_cong.
  Qed.
  Lemma small_value_mod o x k x' : eqmod F x x' -> eqmod F (small_value o x k) (small_value o x' k).
  Proof. intros X. destruct o; cbn [small_value]; [apply eqmod_sum|apply eqmod_diff|apply eqmod_mul]; auto; reflexivity. Qed.
  (** ** Symbols, roots and random elements *)
  Lemma minus_one_root_ok : In F five_fields -> sqrt_m1 F = minus_one_root F.
  Proof. intros H. repeat (destruct H as [<-|H]; [vm_compute; reflexivity|]). destruct H. Qed.
  Lemma symbol_mod x y : eqmod F x y -> eqmod F (symbol F x) (symbol F y).
  Proof.
    intros X. unfold symbol, eqmod. rewrite !Z.mod_mod by (apply modulus_nz; auto). apply eqmod_cong; auto. apply cong_pow. now apply eqmod_cong.
  Qed.
  Lemma root_mod x y : eqmod F x y -> eqmod F (root F x) (root F y).
  Proof.
    intros X. apply eqmod_cong in X; auto. unfold root, eqmod. cbv zeta. destruct (_ =? 3); rewrite !Z.mod_mod by (apply modulus_nz; auto); apply eqmod_cong; auto.
    - now apply cong_pow.
    - rewrite (cong_pow _ _ _ ((modulus F + 3) / 8) X), (cong_pow _ _ _ ((modulus F - 1) / 4) X). reflexivity.
  Qed.
  Lemma power_shape s u a : un_shape F Invert s = Some u -> has_shape F s a ->
    pow_safe F a /\ forall r, pow_safe F r -> fresh F r -> has_shape F u r.
  Proof.
    intros E Sa. cbn [un_shape] in E. destruct (is251 F) eqn:K251; [discriminate|]. pose proof (not251 K251) as N251. destruct (is222 F) eqn:K222.
    - assert (E222 : F = e222_117).
      { apply is_222_eq; auto. revert HF K222. clear. intros H K. repeat (destruct H as [<-|H]; [first [discriminate K|reflexivity]|]). destruct H. }
      destruct (is_loose s) eqn:C; [|discriminate]. injection E as <-. split; [left; split; auto; exact (sh_loose _ _ C Sa)|].
      intros r Pr _. destruct Pr as [[_ L]|[N _]]; [exact L|contradiction].
    - pose proof (not222 K222). destruct (is_wide s) eqn:C; [|discriminate]. injection E as <-.
      split; [right; split; [auto|split; [auto|]]; exact (sh_wide _ _ C Sa)|]. intros r _ Fr. exact Fr.
  Qed.
  Lemma symbol_tracks s u a : un_shape F Invert s = Some u -> has_shape F s a ->
    exists r, runs F "F::legendre" [VArr a] [VArr r] [VArr a] /\ has_shape F u r /\ eqmod F (value F r) (symbol F (value F a)).
  Proof.
    intros E Sa. destruct (power_shape s u a E Sa) as (Pa & G). destruct (legendre_power F a (safe_pow F a HF Pa) Pa) as (r & R & Pr & Fr & V).
    exists r. split; [apply (runsd_runs 3); auto; lia|]. split; [now apply G|]. unfold symbol, eqmod. rewrite Z.mod_mod by (apply modulus_nz; auto). exact V.
  Qed.
  Lemma root_tracks s u a : un_shape F Invert s = Some u -> has_shape F s a ->
    exists r, runs F "F::sqrt" [VArr a] [VArr r] [VArr a] /\ has_shape F u r /\ eqmod F (value F r) (root F (value F a)).
  Proof.
    intros E Sa. destruct (power_shape s u a E Sa) as (Pa & G). pose proof (safe_pow F a HF Pa) as HP. unfold root. cbv zeta.
    destruct (three_or_five F HP) as [T|T].
    - rewrite (three_mod_4 F T). cbn [Z.eqb Pos.eqb]. destruct (sqrt3_power F a T Pa) as (r & R & Pr & Fr & V). exists r.
      split; [apply (runsd_runs 3); auto; lia|]. split; [now apply G|]. unfold eqmod. rewrite Z.mod_mod by (apply modulus_nz; auto). exact V.
    - pose proof (five_mod_8 F T) as M8. pose proof (Z.div_mod (modulus F) 8 ltac:(lia)) as D8. rewrite M8 in D8.
      assert (M4 : modulus F mod 4 = 1).
      { symmetry. apply (Z.mod_unique _ _ (2 * (modulus F / 8) + 1)); lia. }
      rewrite M4. cbn [Z.eqb Pos.eqb]. destruct (sqrt5_power F a T Pa) as (r & R & Pr & Fr & V). exists r.
      split; [apply (runsd_runs 4); auto; lia|]. split; [now apply G|]. unfold eqmod. rewrite Z.mod_mod by (apply modulus_nz; auto).
      refine (eq_trans V _). apply eqmod_cong; auto. rewrite <- (minus_one_root_ok T). unfold sqrt_m1.
      set (h := (modulus F + 1) / 2). assert (H2 : 2 * h = modulus F + 1).
      { unfold h. assert ((modulus F + 1) / 2 = 4 * (modulus F / 8) + 3) as ->; [|lia]. symmetry. apply (Z.div_unique _ _ _ 0); lia. }
      set (q := value F a ^ ((modulus F - 1) / 4)). set (x := value F a ^ ((modulus F + 3) / 8)). set (c := value F (coeff_lit F)).
      exists (x * ((q - 1) * c - 1)). replace (modulus F) with (2 * h - 1) by lia. ring.
  Qed.
  Lemma prime_words : forallb (fun G => forallb (fun i => mword G i =? prime_word G i) (seq 0 (fl_n G))) all_fields = true.
  Proof. vm_compute. reflexivity. Qed.
  Lemma draws_tracks ds : drawsb F ds = true ->
    runs F "F::rand" [VArr ds] [VArr (firstn (fl_n F) ds)] [VArr (skipn (fl_n F) ds)] /\ canonical F (firstn (fl_n F) ds).
  Proof.
    intros K. unfold drawsb in K. apply andb_true_iff in K as [L K]. apply Nat.leb_le in L. rewrite forallb_forall in K.
    assert (E : rand_words F ds = firstn (fl_n F) ds).
    { apply (nth_ext _ _ 0 0); [unfold rand_words; rewrite map_length, seq_length, firstn_length_le; auto|].
      intros i Hi. unfold rand_words in Hi. rewrite map_length, seq_length in Hi. rewrite rand_nth by auto.
      assert (I : In i (seq 0 (fl_n F))) by (apply in_seq; lia). specialize (K i I). apply andb_true_iff in K as [K1 K2].
      pose proof (proj1 (forallb_forall _ _) prime_words F HF) as PW. rewrite forallb_forall in PW. specialize (PW i I). apply Z.eqb_eq in PW.
      rewrite PW, Z.mod_small by lia. rewrite <- (firstn_skipn (fl_n F) ds) at 1. apply app_nth1. rewrite firstn_length_le; auto. }
    rewrite <- E. split; [eapply runsd_runs; [|apply rand_runs; auto]; lia|now apply rand_canonical].
  Qed.
End Track.

Section Track2.
  Variable F : fld.
  Hypothesis HF : In F all_fields.
  Let R2 (a : list Z) (x : Z) := eqmod F (value F a) x.
  Definition sim m (s : state) (i : istate) := Forall2 (has_shape F) m (vars s) /\ Forall2 R2 (vars s) (ivars i) /\ seen s = iseen i.
  Let good (c : instr) s i m' := exists s' i', (forall md, step md F c s = Ok s') /\ istep F c i = Some i' /\ sim m' s' i'.

  Lemma sim_get m s i n sh : sim m s i -> nth_error m n = Some sh ->
    exists a x, var s n = Ok a /\ nth_error (ivars i) n = Some x /\ has_shape F sh a /\ eqmod F (value F a) x.
  Proof.
    intros (A & Bb & _) E. destruct (F2_nth _ _ _ _ _ A E) as (a & Ea & Sa). destruct (F2_nth _ _ _ _ _ Bb Ea) as (x & Ex & X).
    exists a, x. unfold var. rewrite Ea. auto.
  Qed.
  Lemma sim_new m s i a x sh : sim m s i -> has_shape F sh a -> eqmod F (value F a) x ->
    sim (m ++ [sh])%list (mkst (vars s ++ [a])%list (seen s)) (mkis (ivars i ++ [x])%list (iseen i)).
  Proof. intros (A & Bb & C) S X. split; [|split]; cbn; auto using F2_snoc. Qed.
  Lemma sim_set m s i n a x sh : sim m s i -> has_shape F sh a -> eqmod F (value F a) x ->
    sim (replace m n sh) (mkst (replace (vars s) n a) (seen s)) (mkis (replace (ivars i) n x) (iseen i)).
  Proof. intros (A & Bb & C) S X. split; [|split]; cbn; auto using F2_replace. Qed.
  Lemma replace_same {A} (l : list A) n x : nth_error l n = Some x -> replace l n x = l.
  Proof. revert n. induction l as [|y l IH]; intros [|n] E; try discriminate; simpl in *; [congruence|]. f_equal. auto. Qed.
  Lemma sim_norm m s i n a x sh : sim m s i -> nth_error m n = Some sh -> has_shape F Canonical a ->
    nth_error (ivars i) n = Some x -> eqmod F (value F a) x ->
    sim (replace m n Canonical) (mkst (replace (vars s) n a) (seen s)) i.
  Proof.
    intros S E C Ex X. destruct (sim_set m s i n a x Canonical S C X) as (A & Bb & D). split; [|split]; auto. cbn in *.
    now rewrite (replace_same _ _ _ Ex) in Bb.
  Qed.
  Lemma sim_see m s i v : sim m s i -> sim m (mkst (vars s) (seen s ++ [v])%list) (mkis (ivars i) (iseen i ++ [v])%list).
  Proof. intros (A & Bb & C). split; [|split]; cbn; auto. now rewrite C. Qed.

  Ltac getm := repeat match goal with
    | G : match nth_error ?m ?i with Some _ => _ | None => None end = Some _ |- _ => destruct (nth_error m i) as [?sh|] eqn:?; [|discriminate G]
    end.
  Ltac conds := repeat match goal with
    | H : (if ?c then _ else None) = Some _ |- _ => destruct c eqn:?; [|discriminate H]
    | H : _ && _ = true |- _ => apply andb_true_iff in H as [? ?]
    | H : match ?o with Some _ => Some _ | None => None end = Some _ |- _ => destruct o eqn:?; [|discriminate H]
    | H : Some _ = Some _ |- _ => injection H as <-
    end.

  Lemma unpack_tracks bs : bytesb bs && (fl_nb F <=? List.length bs)%nat = true ->
    exists o, runs F "F::unpacked" [VArr bs] [VArr o] [VArr bs] /\ has_shape F (if nbits F =? 383 then Summand else Tight) o /\
      value F o = bytes_value F bs.
  Proof.
    intros K. apply andb_true_iff in K as [K1 K2]. apply bytesb_ok in K1. apply Nat.leb_le in K2.
    destruct (unpack_claim F (to_words F 0) bs HF) as (o & _ & R & S1 & S2); auto using zero_words. exists o. split; [exact R|]. unfold bytes_value.
    assert (D : (F = e383_187 /\ (nbits F =? 383) = true) \/ (F <> e383_187 /\ (nbits F =? 383) = false)).
    { revert HF. clear. intros H. repeat (destruct H as [<-|H]; [first [left; split; [reflexivity|reflexivity; fail]|right; split; [|reflexivity]; intros E; apply (f_equal fl_n) in E; discriminate E|
        right; split; [|reflexivity]; intros E; apply (f_equal fl_C) in E; discriminate E]|]). destruct H. }
    destruct D as [[E X]|[E X]]; rewrite X; [destruct (S2 E)|destruct (S1 E)]; split; auto.
  Qed.

  Lemma step_tracks c m m' s i : tracks F c m = Some m' -> sim m s i -> good c s i m'.
  Proof.
    intros E H. destruct c; cbn [tracks] in E; try discriminate E.
    - destruct (constants_claim F HF) as (z & o & n & p & R1 & R3 & R4 & R5 & C1 & V1 & C2 & V2 & C3 & V3 & C4 & V4).
      destruct c; injection E as <-; eexists; eexists; (split; [intros md; cbn [step const_name]; first [rewrite (R1 md)|rewrite (R3 md)|rewrite (R4 md)|rewrite (R5 md)]; reflexivity|split; [reflexivity|apply sim_new; auto]]); cbn [const_value].
      + now rewrite V1.
      + now rewrite V2.
      + rewrite V3. unfold eqmod. replace (modulus F - 1) with (-1 + 1 * modulus F) by ring. apply Z.mod_add, modulus_nz; auto.
      + rewrite V4. unfold eqmod. rewrite Z.mod_same, Z.mod_0_l by (apply modulus_nz; auto). reflexivity.
    - destruct (bytesb bs && (fl_nb F <=? List.length bs)%nat) eqn:K; [|discriminate]. injection E as <-.
      destruct (unpack_tracks bs K) as (o & R & S & V).
      eexists; eexists. split; [intros md; cbn [step]; rewrite (R md); reflexivity|]. split; [reflexivity|]. apply sim_new; auto. now rewrite V.
    - conds. destruct (draws_tracks F HF ds Heqb) as (R & C).
      eexists; eexists. split; [intros md; cbn [step]; rewrite (R md); reflexivity|]. split; [reflexivity|]. apply sim_new; auto. reflexivity.
    - getm. conds. destruct (sim_get _ _ _ _ _ H Heqo0) as (a & x & Va & Ix & Sa & Xa). destruct (sim_get _ _ _ _ _ H Heqo1) as (b & y & Vb & Iy & Sb & Xb).
      destruct (op_tracks F HF _ _ _ _ a b Heqo2 Sa Sb) as (r & [_ R] & Sr & Vr).
      eexists; eexists. split; [intros md; cbn [step]; rewrite Va, Vb; cbn [bind]; rewrite (R md); reflexivity|].
      split; [cbn [istep]; rewrite Ix, Iy; reflexivity|]. apply sim_new; auto. refine (eq_trans Vr _). now apply op_value_mod.
    - getm. conds. destruct (sim_get _ _ _ _ _ H Heqo0) as (a & x & Va & Ix & Sa & Xa). destruct (sim_get _ _ _ _ _ H Heqo1) as (b & y & Vb & Iy & Sb & Xb).
      destruct (op_tracks F HF _ _ _ _ a b Heqo2 Sa Sb) as (r & [R _] & Sr & Vr).
      eexists; eexists. split; [intros md; cbn [step]; rewrite Va, Vb; cbn [bind]; rewrite (R md); reflexivity|].
      split; [cbn [istep]; rewrite Ix, Iy; reflexivity|]. apply sim_set; auto. refine (eq_trans Vr _). now apply op_value_mod.
    - getm. conds. destruct (sim_get _ _ _ _ _ H Heqo0) as (a & x & Va & Ix & Sa & Xa).
      destruct (small_tracks F HF _ _ _ a k Heqo1 Sa) as (r & [_ R] & Sr & Vr).
      eexists; eexists. split; [intros md; cbn [step]; rewrite Va; cbn [bind]; rewrite (R md); reflexivity|].
      split; [cbn [istep]; rewrite Ix; reflexivity|]. apply sim_new; auto. refine (eq_trans Vr _). now apply small_value_mod.
    - getm. conds. destruct (sim_get _ _ _ _ _ H Heqo0) as (a & x & Va & Ix & Sa & Xa).
      destruct (small_tracks F HF _ _ _ a k Heqo1 Sa) as (r & [R _] & Sr & Vr).
      eexists; eexists. split; [intros md; cbn [step]; rewrite Va; cbn [bind]; rewrite (R md); reflexivity|].
      split; [cbn [istep]; rewrite Ix; reflexivity|]. apply sim_set; auto. refine (eq_trans Vr _). now apply small_value_mod.
    - getm. conds. destruct (sim_get _ _ _ _ _ H Heqo) as (a & x & Va & Ix & Sa & Xa).
      destruct (un_tracks F HF _ _ _ a Heqo0 Sa) as (r & [_ R] & Sr & Vr).
      eexists; eexists. split; [intros md; cbn [step]; rewrite Va; cbn [bind]; rewrite (R md); reflexivity|].
      split; [cbn [istep]; rewrite Ix; reflexivity|]. apply sim_new; auto. refine (eq_trans Vr _). now apply un_value_mod.
    - getm. conds. destruct (sim_get _ _ _ _ _ H Heqo) as (a & x & Va & Ix & Sa & Xa).
      destruct (un_tracks F HF _ _ _ a Heqo0 Sa) as (r & [R _] & Sr & Vr).
      eexists; eexists. split; [intros md; cbn [step]; rewrite Va; cbn [bind]; rewrite (R md); reflexivity|].
      split; [cbn [istep]; rewrite Ix; reflexivity|]. apply sim_set; auto. refine (eq_trans Vr _). now apply un_value_mod.
    - getm. conds. destruct (sim_get _ _ _ _ _ H Heqo) as (a & x & Va & Ix & Sa & Xa).
      destruct (symbol_tracks F HF _ _ a Heqo0 Sa) as (r & R & Sr & Vr).
      eexists; eexists. split; [intros md; cbn [step]; rewrite Va; cbn [bind]; rewrite (R md); reflexivity|].
      split; [cbn [istep]; rewrite Ix; reflexivity|]. apply sim_new; auto. refine (eq_trans Vr _). now apply symbol_mod.
    - getm. conds. destruct (sim_get _ _ _ _ _ H Heqo) as (a & x & Va & Ix & Sa & Xa).
      destruct (root_tracks F HF _ _ a Heqo0 Sa) as (r & R & Sr & Vr).
      eexists; eexists. split; [intros md; cbn [step]; rewrite Va; cbn [bind]; rewrite (R md); reflexivity|].
      split; [cbn [istep]; rewrite Ix; reflexivity|]. apply sim_new; auto. refine (eq_trans Vr _). now apply root_mod.
    - getm. conds. destruct (sim_get _ _ _ _ _ H Heqo) as (a & x & Va & Ix & Sa & Xa). pose proof (sh_normal F HF _ _ Heqb Sa) as N.
      pose proof (normalize_normal F a HF N) as R. apply (runsd_runs 4) in R; [|lia].
      eexists; exists i. split; [intros md; cbn [step]; rewrite Va; cbn [bind]; rewrite (R md); reflexivity|].
      split; [cbn [istep]; rewrite Ix; reflexivity|]. eapply sim_norm; eauto; [now apply canon_canonical|].
      rewrite canon_value by auto. unfold eqmod. rewrite Z.mod_mod by (apply modulus_nz; auto). exact Xa.
    - getm. conds. destruct (sim_get _ _ _ _ _ H Heqo) as (a & x & Va & Ix & Sa & Xa). pose proof (sh_normal F HF _ _ Heqb Sa) as N.
      pose proof (packed_runs F a HF N) as R. apply (runsd_runs 6) in R; [|lia].
      eexists; eexists. split; [intros md; cbn [step]; rewrite Va; cbn [bind]; rewrite (R md); reflexivity|].
      split; [cbn [istep]; rewrite Ix; reflexivity|]. rewrite (proj2 (encode_eq F _ _ HF) Xa).
      refine (sim_see _ (mkst (replace (vars s) i0 (canon F a)) (seen s)) i _ _). eapply sim_norm; eauto; [now apply canon_canonical|].
      rewrite canon_value by auto. unfold eqmod. rewrite Z.mod_mod by (apply modulus_nz; auto). exact Xa.
    - getm. conds. destruct (sim_get _ _ _ _ _ H Heqo) as (a & x & Va & Ix & Sa & Xa). destruct (sim_get _ _ _ _ _ H Heqo0) as (b & y & Vb & Iy & Sb & Xb).
      pose proof (sh_normal F HF _ _ H0 Sa) as Na. pose proof (sh_normal F HF _ _ H2 Sb) as Nb. apply negb_true_iff, Nat.eqb_neq in H1.
      destruct (normalize_eq_runs F a b HF Na Nb) as (r & R & T). apply (runsd_runs 6) in R; [|lia].
      assert (Er : r = VInt (b2z (x mod modulus F =? y mod modulus F))).
      { assert (Q : eqmod F (value F a) (value F b) <-> x mod modulus F = y mod modulus F) by (unfold eqmod in *; rewrite Xa, Xb; reflexivity).
        destruct T as [[P ->]|[P ->]].
        - apply Q in P. rewrite P, Z.eqb_refl. reflexivity.
        - destruct (Z.eqb_spec (x mod modulus F) (y mod modulus F)) as [Z1|]; [|reflexivity]. exfalso. apply P, Q, Z1. }
      subst r. eexists; eexists. split; [intros md; cbn [step]; rewrite Va, Vb; cbn [bind]; rewrite (R md); reflexivity|].
      split; [cbn [istep]; rewrite Ix, Iy; reflexivity|].
      refine (sim_see _ (mkst (replace (replace (vars s) i0 (canon F a)) j (canon F b)) (seen s)) i _ _).
      assert (S1 : sim (replace m i0 Canonical) (mkst (replace (vars s) i0 (canon F a)) (seen s)) i).
      { eapply sim_norm; eauto; [now apply canon_canonical|]. rewrite canon_value by auto. unfold eqmod. rewrite Z.mod_mod by (apply modulus_nz; auto). exact Xa. }
      assert (Hj : nth_error (replace m i0 Canonical) j = Some sh0).
      { clear -Heqo0 H1. revert i0 j Heqo0 H1. induction m as [|z m IH]; intros [|i0] [|j] E N; try discriminate; simpl in *; auto; congruence. }
      refine (sim_norm _ _ _ j _ y sh0 S1 Hj _ Iy _); [now apply canon_canonical|].
      rewrite canon_value by auto. unfold eqmod. rewrite Z.mod_mod by (apply modulus_nz; auto). exact Xb.
    - conds. getm. conds. destruct (sim_get _ _ _ _ _ H Heqo) as (a & x & Va & Ix & Sa & Xa). pose proof (sh_normal F HF _ _ Heqb Sa) as N.
      pose proof (bit_runs F a n HF N ltac:(lia)) as R. apply (runsd_runs 5) in R; [|lia].
      eexists; eexists. split; [intros md; cbn [step]; rewrite Va; cbn [bind]; rewrite (R md); reflexivity|].
      split; [cbn [istep]; rewrite Ix; reflexivity|]. rewrite Xa.
      refine (sim_see _ (mkst (replace (vars s) i0 (canon F a)) (seen s)) i _ _). eapply sim_norm; eauto; [now apply canon_canonical|].
      rewrite canon_value by auto. unfold eqmod. rewrite Z.mod_mod by (apply modulus_nz; auto). exact Xa.
    - getm. conds. destruct (sim_get _ _ _ _ _ H Heqo) as (a & x & Va & Ix & Sa & Xa). pose proof (sh_normal F HF _ _ Heqb Sa) as N.
      pose proof (hex_runs F upper a [] HF N) as R. apply (runsd_runs 7) in R; [|lia]. unfold hexname in R. unfold encode in R. rewrite hex_text_digits in R.
      eexists; eexists. split; [intros md; cbn [step]; rewrite Va; cbn [bind]; rewrite (R md); reflexivity|].
      split; [cbn [istep]; rewrite Ix; reflexivity|]. cbn [app]. rewrite Xa. apply sim_see. exact H.
  Qed.
  Lemma run_tracks p : forall m m' s i, tracks_all F p m = Some m' -> sim m s i ->
    exists s' i', (forall md, run md F p s = Ok s') /\ ideal F p i = Some i' /\ sim m' s' i'.
  Proof.
    induction p as [|c p IH]; intros m m' s i E H; cbn [tracks_all] in E.
    - injection E as <-. exists s, i. auto.
    - destruct (tracks F c m) as [m1|] eqn:E1; [|discriminate].
      destruct (step_tracks c m m1 s i E1 H) as (s1 & i1 & S1 & I1 & H1). destruct (IH m1 m' s1 i1 E H1) as (s' & i' & S' & I' & H').
      exists s', i'. split; [|split]; auto; [intros md; cbn [run]; rewrite S1; cbn [bind]; apply S'|cbn [ideal]; rewrite I1; exact I'].
  Qed.
End Track2.
Lemma disciplined F p m : In F all_fields -> tracks_all F p [] = Some m ->
  exists s i, (forall md, run md F p start = Ok s) /\ ideal F p istart = Some i /\ seen s = iseen i /\
    Forall2 (has_shape F) m (vars s) /\ Forall2 (fun a x => eqmod F (value F a) x) (vars s) (ivars i).
Proof.
  intros H E. destruct (run_tracks F H p [] m start istart E) as (s & i & R & I & A & Bb & C).
  { split; [|split]; constructor. }
  exists s, i. auto.
Qed.
Lemma inverse_ok F x : In F all_fields -> (~ eqmod F x 0 -> eqmod F (inverse F x * x) 1) /\ (eqmod F x 0 -> inverse F x = 0).
Proof.
  intros H. pose proof (prime_modulus F H) as P. split; intros N.
  - unfold inverse. unfold eqmod. rewrite Z.mul_mod_idemp_l by (apply modulus_nz; auto). apply eqmod_cong; auto. apply fermat_inverse; auto.
    intros D. apply N. apply eqmod_cong; auto. now apply div0.
  - unfold inverse. assert (E : eqmod F (x ^ (modulus F - 2)) 0).
    { apply eqmod_cong; auto. apply zero_pow; auto; [|apply cong0, eqmod_cong; auto].
      pose proof (odd_modulus F H). pose proof (Znumtheory.prime_ge_2 _ P). destruct (Z.eq_dec (modulus F) 2) as [E2|]; [rewrite E2 in *; discriminate|lia]. }
    unfold eqmod in E. rewrite E. apply Z.mod_0_l, modulus_nz; auto.
Qed.
