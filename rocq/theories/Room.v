(** Products of values with large top words: how large they may be. *)
From Coq Require Import ZArith List String Lia Bool.
From Verif Require Import Lang Poly Kernel Kmore Fields Kfacts Ops Normalize Methods Arith Exact Safe SmallMul SmallAny Roots Domain.
Import ListNotations.
Local Open Scope string_scope.
Local Open Scope Z_scope.

Definition exact222s : list fact :=
  [floor_fact (sqx e222_117) 58 ["d0"; "d1"; "d2"; "d3"; "d4"; "d5"; "d6"] "d7";
   (0, [(1, TV "hc7_0"); (-117, TQ "d7" 19)]);
   (modulus e222_117, [(1, TO); (-1, TX (sqx e222_117)); (2 ^ 232, TQ "hc7_0" 29)])].
Lemma room222s_checked : kfacts (fn e222_117 "F::square") (ks1 e222_117 (- W e222_117) (W e222_117) (-1) (mx e222_117) 0 (XC 0) []) [] exact222s = true.
Proof. vm_cast_no_check (eq_refl true). Qed.

Lemma room_pos F : In F all_fields -> 0 <= room F.
Proof. intros H. apply Z.leb_le. revert F H. apply all_chk. vm_compute. reflexivity. Qed.
Lemma room_sden F a : wide F a -> xden [VArr a] (sqx F) = value F a * value F a.
Proof.
  intros A. unfold sqx. change (xden [VArr a] (XMul (V F 0) (V F 0))) with (xden [VArr a] (V F 0) * xden [VArr a] (V F 0)).
  rewrite (V_den F _ 0 _ _ a) by (reflexivity || exact A). reflexivity.
Qed.
(** what is lost in e222_117 *)
Lemma lost222 o v h d7 : d7 = v / 2 ^ 406 -> (0 | 1 * h + (-117 * (d7 / 2 ^ 19) + 0)) -> (modulus e222_117 | o - v + 2 ^ 232 * (h / 2 ^ 29)) ->
  Z.abs v <= ((2 ^ 12 + 1) * 2 ^ 222) * ((2 ^ 12 + 1) * 2 ^ 222) -> (eqmod e222_117 o v <-> 0 <= v < 4588641 * 2 ^ 425).
Proof.
  intros D1 (k & D2) D3 Bd. rewrite D1, Z.div_div, <- Z.pow_add_r in D2 by lia. change (406 + 19) with 425 in D2.
  assert (E : h = 117 * (v / 2 ^ 425)) by lia. rewrite E in D3. clear D1 D2 E k.
  assert (Bv : Z.abs (v / 2 ^ 425) <= 2 ^ 44) by (apply div_abs; [lia|]; apply Z.le_trans with (1 := Bd); vm_compute; discriminate).
  assert (X : 0 <= v < 4588641 * 2 ^ 425 <-> 117 * (v / 2 ^ 425) / 2 ^ 29 = 0).
  { rewrite div_zero by lia. pose proof (Z.div_mod v (2 ^ 425) ltac:(lia)) as DM. pose proof (Z.mod_pos_bound v (2 ^ 425) ltac:(lia)) as MB.
    assert (P : 0 < 2 ^ 425) by lia. revert DM MB P. generalize (2 ^ 425) as m, (v mod 2 ^ 425) as r. clear. intros m r DM MB P. change (2 ^ 29) with 536870912.
    set (u := v / m) in *. split; intros H.
    - assert (0 <= u) by nia. assert (u < 4588641) by nia. lia.
    - assert (0 <= u <= 4588640) by lia. nia. }
  rewrite X. apply lost with (2 ^ 232); [exact D3|vm_compute; reflexivity|].
  apply Z.le_lt_trans with (117 * 2 ^ 15); [|vm_compute; reflexivity]. apply div_abs; [lia|]. rewrite Z.abs_mul. change (Z.abs 117) with 117. change (2 ^ 44) with (2 ^ 15 * 2 ^ 29) in Bv. lia.
Qed.
Lemma facts1 F f lo1 hi1 olo ohi m x hs bs fs a : In F all_fields -> has f F = true ->
  kfacts (fn F f) (ks1 F lo1 hi1 olo ohi m x hs) bs fs = true -> rep F lo1 hi1 a ->
  exists o rho, runsd 1 F f [VArr a] [] [VArr o] /\ rep F olo ohi o /\
    Forall (fun c => (fst c | fsum [VArr a] rho (value F o) (snd c))) fs.
Proof.
  intros HF Hh K A. destruct (facts_sound _ _ _ _ K [VArr a]) as (l0 & ws & E & R & W & rho & N & D).
  { repeat constructor; apply rep_arg; auto. }
  injection E as <-. destruct (out_len _ _ _ _ _ _ _ HF W A) as [O1 O2]. exists ws, rho. split; [|split; [exact O2|]].
  - eapply body_runs; [apply has_fn; exact Hh|]. intros md cl. rewrite R. simpl. rewrite O1. reflexivity.
  - unfold value. rewrite <- wsum_value. exact D.
Qed.
Lemma square_room F a : In F all_fields -> wide F a ->
  exists o, computes_unary F "F::square" "F::squared" a o /\ produced F o /\
    (eqmod F (value F o) (value F a * value F a) <-> (F = e222_117 -> value F a * value F a < 4588641 * 2 ^ 425)).
Proof.
  intros HF A. destruct (is_222 F) eqn:E.
  - apply is_222_eq in E; [|exact HF]. subst F.
    destruct (facts1 e222_117 "F::square" _ _ _ _ _ _ _ _ _ a in_222 eq_refl room222s_checked A) as (o & rho & R & Ro & D).
    exists o. split; [now apply computes_square_intro|]. split; [now apply fresh_produced'|].
    inversion D as [|? ? D1 D']; subst. inversion D' as [|? ? D2 D'']; subst. inversion D'' as [|? ? D3 _]; subst. clear D D' D''.
    apply floor_fact_ok in D1; [|lia]. rewrite (room_sden _ _ A) in D1. change (58 * Z.of_nat _) with 406 in D1.
    cbn [fst snd fsum fold_right tden] in D2, D3. rewrite (room_sden _ _ A) in D3.
    rewrite (lost222 _ _ (rho "hc7_0") (rho "d7") D1 D2).
    + split; [intros X _; apply X|intros X; split; [apply Z.square_nonneg|now apply X]].
    + change (Z.pow_pos 2 232) with (2 ^ 232) in D3. match type of D3 with (_ | ?x) => match goal with |- (_ | ?y) => replace y with x by ring; exact D3 end end.
    + rewrite Z.abs_mul. pose proof (wide_abs _ _ HF A) as WA. apply Z.mul_le_mono_nonneg; try apply Z.abs_nonneg; exact WA.
  - assert (N : F <> e222_117) by (intros ->; discriminate E). destruct (square_ok F a HF) as (o & R & Ro & X & _); [right; right; split; [exact N|exact A]|].
    exists o. split; [now apply computes_square_intro|]. split; [now apply fresh_produced'|]. split; [intros _ E'; contradiction|intros _; exact X].
Qed.

Lemma inverse_room F a : In F all_fields -> F <> e222_117 -> F <> e251_9 -> wide F a ->
  exists i o, computes_unary F "F::invert" "F::inverted" a i /\ produced F i /\ computes F "mul" i a o /\ produced F o /\
    (eqmod F (value F a) 0 -> eqmod F (value F i) 0) /\ (~ eqmod F (value F a) 0 -> eqmod F (value F o) 1).
Proof.
  intros H N1 N2 A. destruct (invert_claim F a H) as (i & R & _ & P & Z & o & R' & P' & U); [right; split; [exact N1|split; [exact N2|exact A]]|].
  exists i, o. split; [exact R|]. split; [exact P|]. split; [exact R'|]. split; [exact P'|]. split; [exact Z|exact U].
Qed.

(** ** Small multiples as operands *)
Lemma multiple_room F a k : In F all_fields -> any_rep F a -> is_i32 k -> Z.abs k <= 2 ^ room F -> small_exact F a k ->
  exists x, computes_small F "mul" a k x /\ value F x = value F a * k /\ wide F x.
Proof.
  intros H A Hk Ka S. rename H into HF. pose proof (room_pos F HF) as R0. destruct (small_mul_any F a k HF A Hk) as (x & _ & Rx & _ & X). destruct (X S) as (C & V).
  exists x. split; [exact C|]. split; [exact V|]. destruct Rx as (L & W & T). split; [exact L|]. split; [exact W|].
  destruct S as (C0 & _). pose proof (carry_tight F _ _ a HF A C0) as Ta. destruct (rep_value F _ _ a HF Ta) as (Va & Vl). destruct Ta as (_ & _ & Ta).
  rewrite (value_top F (- 2 ^ 63) (2 ^ 63 - 1) x HF) by (split; [exact L|split; [exact W|exact T]]). rewrite V.
  pose proof (lowmod_pos F HF) as LM. destruct (layout_facts F HF) as (_ & _ & Ht & _). rewrite Z.pow_add_r by lia.
  assert (Vb : 0 <= value F a < lowmod F * 2 ^ fl_tb F) by nia.
  assert (Kb : Z.abs (value F a * k) <= 2 ^ fl_tb F * 2 ^ room F * lowmod F).
  { rewrite Z.abs_mul. replace (2 ^ fl_tb F * 2 ^ room F * lowmod F) with (lowmod F * 2 ^ fl_tb F * 2 ^ room F) by ring. apply Z.mul_le_mono_nonneg; lia. }
  pose proof (div_abs (value F a * k) (lowmod F) (2 ^ fl_tb F * 2 ^ room F) ltac:(lia) Kb). lia.
Qed.
Lemma multiples_room F a b k l : In F all_fields -> any_rep F a -> any_rep F b -> is_i32 k -> is_i32 l -> Z.abs k <= 2 ^ room F -> Z.abs l <= 2 ^ room F ->
  small_exact F a k -> small_exact F b l ->
  exists x y o, computes_small F "mul" a k x /\ computes_small F "mul" b l y /\ computes F "mul" x y o /\ produced F o /\
    (eqmod F (value F o) (k * l * (value F a * value F b)) <->
     (F = e222_117 -> 0 <= k * l * (value F a * value F b) < 4588641 * 2 ^ 425) /\ (F = e251_9 -> 0 <= k * l * (value F a * value F b) < 2 ^ 504)).
Proof.
  intros H A Bb Hk Hl Ka La Sa Sb. destruct (multiple_room F a k H A Hk Ka Sa) as (x & Cx & Vx & Wx). destruct (multiple_room F b l H Bb Hl La Sb) as (y & Cy & Vy & Wy).
  destruct (mul_room F x y H Wx Wy) as (o & Co & Po & X). exists x, y, o. split; [exact Cx|]. split; [exact Cy|]. split; [exact Co|]. split; [exact Po|].
  rewrite Vx, Vy in X. replace (value F a * k * (value F b * l)) with (k * l * (value F a * value F b)) in X by ring. exact X.
Qed.
