(** Exactly when products are right.  Where a method drops part of a product,
    the checker of Kmore.v says what it drops, so the result is right if and
    only if that is nothing. *)
From Coq Require Import ZArith List String Lia Bool.
From Verif Require Import Lang Poly Kernel Kmore Fields Kfacts Ops Methods Arith.
Import ListNotations.
Local Open Scope string_scope.
Local Open Scope Z_scope.

(** x holds floor(N / 2^(w * length ds)), the digits below being those of ds *)
Fixpoint digit_terms (w i : Z) (ds : list string) : list (Z * fterm) :=
  match ds with
  | [] => []
  | d :: t => (2 ^ (w * i), TV d) :: (- 2 ^ (w * (i + 1)), TQ d w) :: digit_terms w (i + 1) t
  end.
Definition floor_fact (N : sexp) (w : Z) (ds : list string) (x : string) : fact :=
  (0, (-1, TX N) :: (2 ^ (w * Z.of_nat (List.length ds)), TV x) :: digit_terms w 0 ds).
Lemma digit_terms_bound args rho o w ds : 0 <= w -> forall i, 0 <= i ->
  exists r, fsum args rho o (digit_terms w i ds) = 2 ^ (w * i) * r /\ 0 <= r < 2 ^ (w * Z.of_nat (List.length ds)).
Proof.
  intros Hw. induction ds as [|d t IH]; intros i Hi.
  - exists 0. change (Z.of_nat (List.length (@nil string))) with 0. rewrite !Z.mul_0_r, Z.pow_0_r. split; [reflexivity|lia].
  - destruct (IH (i + 1) ltac:(lia)) as (r & E & R).
    exists (rho d mod 2 ^ w + 2 ^ w * r). change (fsum args rho o (digit_terms w i (d :: t))) with
      (2 ^ (w * i) * rho d + (- 2 ^ (w * (i + 1)) * (rho d / 2 ^ w) + fsum args rho o (digit_terms w (i + 1) t))).
    rewrite E. replace (w * (i + 1)) with (w * i + w) by ring. rewrite (Z.pow_add_r 2 (w * i) w) by nia.
    pose proof (pow2_pos w Hw) as P. pose proof (Z.div_mod (rho d) (2 ^ w) ltac:(lia)) as D. pose proof (Z.mod_pos_bound (rho d) (2 ^ w) P) as M.
    split; [rewrite D at 1; ring|].
    replace (Z.of_nat (List.length (d :: t))) with (1 + Z.of_nat (List.length t)) by (cbn [List.length]; lia).
    rewrite Z.mul_add_distr_l, Z.mul_1_r, Z.pow_add_r by lia. nia.
Qed.
Lemma floor_fact_ok args rho o N w ds x : 0 <= w -> (fst (floor_fact N w ds x) | fsum args rho o (snd (floor_fact N w ds x))) ->
  rho x = xden args N / 2 ^ (w * Z.of_nat (List.length ds)).
Proof.
  intros Hw (k & K). unfold floor_fact in K. cbn [fst snd] in K. rewrite Z.mul_0_r in K.
  change (fsum args rho o ((-1, TX N) :: (2 ^ (w * Z.of_nat (List.length ds)), TV x) :: digit_terms w 0 ds)) with
    (-1 * xden args N + (2 ^ (w * Z.of_nat (List.length ds)) * rho x + fsum args rho o (digit_terms w 0 ds))) in K.
  destruct (digit_terms_bound args rho o w ds Hw 0 ltac:(lia)) as (r & E & R). rewrite E, Z.mul_0_r, Z.pow_0_r, Z.mul_1_l in K.
  apply Z.div_unique with r; lia.
Qed.

(** ** Multiplication in e251_9 and e222_117 *)
Definition exact251 : list fact :=
  [floor_fact (mulx e251_9) 56 ["d0"; "d1"; "d2"; "d3"; "d4"; "d5"; "d6"; "d7"] "d8";
   (modulus e251_9, [(1, TO); (-1, TX (mulx e251_9)); (2 ^ 504, TQ "d8" 56)])].
Definition exact222 : list fact :=
  [floor_fact (mulx e222_117) 58 ["d0"; "d1"; "d2"; "d3"; "d4"; "d5"; "d6"] "d7";
   (0, [(1, TV "hc7_0"); (-117, TQ "d7" 19)]);
   (modulus e222_117, [(1, TO); (-1, TX (mulx e222_117)); (2 ^ 232, TQ "hc7_0" 29)])].
Definition wideks F := ks2 F (- W F) (W F) (- W F) (W F) (-1) (mx F) 0 (XC 0) [].
Lemma exact251_checked : kfacts (fn e251_9 "F::mul_assign(&F)") (wideks e251_9) [] exact251 = true.
Proof. vm_cast_no_check (eq_refl true). Qed.
Lemma exact222_checked : kfacts (fn e222_117 "F::mul_assign(&F)") (wideks e222_117) [] exact222 = true.
Proof. vm_cast_no_check (eq_refl true). Qed.

Lemma facts2 F f lo1 hi1 lo2 hi2 olo ohi m x hs bs fs a b : In F all_fields -> has f F = true ->
  kfacts (fn F f) (ks2 F lo1 hi1 lo2 hi2 olo ohi m x hs) bs fs = true -> rep F lo1 hi1 a -> rep F lo2 hi2 b ->
  exists o rho, runsd 1 F f [VArr a; VArr b] [] [VArr o; VArr b] /\ rep F olo ohi o /\
    Forall (fun c => snd (fst c) <= rho (fst (fst c)) <= snd c) bs /\
    Forall (fun c => (fst c | fsum [VArr a; VArr b] rho (value F o) (snd c))) fs.
Proof.
  intros HF Hh K A Bb. destruct (facts_sound _ _ _ _ K [VArr a; VArr b]) as (l0 & ws & E & R & W & rho & N & D).
  { repeat constructor; apply rep_arg; auto. }
  injection E as <-. destruct (out_len _ _ _ _ _ _ _ HF W A) as [O1 O2]. exists ws, rho. split; [|split; [exact O2|split; [exact N|]]].
  - eapply body_runs; [apply has_fn; exact Hh|]. intros md cl. rewrite R. simpl. rewrite O1. reflexivity.
  - unfold value. rewrite <- wsum_value. exact D.
Qed.
Lemma factsi F f lo1 hi1 lo2 hi2 olo ohi m x bs fs a k : In F all_fields -> has f F = true ->
  kfacts (fn F f) (ksi F lo1 hi1 lo2 hi2 olo ohi m x) bs fs = true -> rep F lo1 hi1 a -> lo2 <= k <= hi2 ->
  exists o rho, runsd 1 F f [VArr a; VInt k] [] [VArr o; VInt k] /\ rep F olo ohi o /\
    Forall (fun c => snd (fst c) <= rho (fst (fst c)) <= snd c) bs /\
    Forall (fun c => (fst c | fsum [VArr a; VInt k] rho (value F o) (snd c))) fs.
Proof.
  intros HF Hh K A Bk. destruct (facts_sound _ _ _ _ K [VArr a; VInt k]) as (l0 & ws & E & R & W & rho & N & D).
  { repeat constructor; [apply rep_arg; auto|exists k; auto]. }
  injection E as <-. destruct (out_len _ _ _ _ _ _ _ HF W A) as [O1 O2]. exists ws, rho. split; [|split; [exact O2|split; [exact N|]]].
  - eapply body_runs; [apply has_fn; exact Hh|]. intros md cl. rewrite R. simpl. rewrite O1. reflexivity.
  - unfold value. rewrite <- wsum_value. exact D.
Qed.

(** nothing is lost exactly when the lost multiple is nought *)
Lemma lost F o v c q : (modulus F | o - v + c * q) -> Z.gcd (modulus F) c = 1 -> Z.abs q < modulus F ->
  (eqmod F o v <-> q = 0).
Proof.
  intros D G Q. split.
  - intros E. assert (D' : (modulus F | c * q)).
    { replace (c * q) with ((o - v + c * q) - (o - v)) by ring. apply Z.divide_sub_r; [exact D|].
      apply Z.mod_divide; [lia|]. rewrite Zminus_mod. unfold eqmod in E. rewrite E, Z.sub_diag. apply Z.mod_0_l. lia. }
    apply (Z.gauss _ _ _ D') in G. destruct G as (k & ->). destruct (Z.eq_dec k 0) as [->|N]; [reflexivity|]. exfalso.
    rewrite Z.abs_mul in Q. assert (1 <= Z.abs k) by lia. assert (Z.abs (modulus F) = modulus F) by (apply Z.abs_eq; lia). nia.
  - intros ->. apply divide_eqmod. now rewrite Z.mul_0_r, Z.add_0_r in D.
Qed.
Lemma div_zero x m : 0 < m -> (x / m = 0 <-> 0 <= x < m).
Proof. intros Hm. split; [|apply Z.div_small]. intros E. pose proof (Z.div_mod x m ltac:(lia)). pose proof (Z.mod_pos_bound x m Hm). lia. Qed.
Lemma wide_abs F l : In F all_fields -> wide F l -> Z.abs (value F l) <= (2 ^ room F + 1) * 2 ^ nbits F.
Proof.
  intros HF W. pose proof (rep_value F _ _ l HF W) as (E & L). destruct W as (_ & _ & T). pose proof (pow_nbits' F HF). pose proof (lowmod_pos F HF). pose proof (B_pos F HF).
  assert (R0 : 0 <= room F) by (apply Z.leb_le; revert F HF E L T H H0 H1; clear; intros F HF _ _ _ _ _ _; revert F HF; apply all_chk; vm_compute; reflexivity).
  destruct (layout_facts F HF) as (_ & _ & Ht & _). rewrite Z.pow_add_r in T by lia. unfold B in *. assert (0 < 2 ^ room F) by (apply Z.pow_pos_nonneg; lia). rewrite E, H.
  set (m := lowmod F) in *. set (b := 2 ^ fl_tb F) in *. set (s := 2 ^ room F) in *. clearbody m b s. nia.
Qed.
Lemma div_abs x m k : 0 < m -> Z.abs x <= k * m -> Z.abs (x / m) <= k.
Proof.
  intros Hm H. pose proof (Z.div_mod x m ltac:(lia)). pose proof (Z.mod_pos_bound x m Hm). nia.
Qed.

Lemma mul_den F a b : wide F a -> wide F b -> xden [VArr a; VArr b] (mulx F) = value F a * value F b.
Proof.
  intros A Bb. unfold mulx. change (xden [VArr a; VArr b] (XMul (V F 0) (V F 1))) with (xden [VArr a; VArr b] (V F 0) * xden [VArr a; VArr b] (V F 1)).
  rewrite (V_den F _ 0 _ _ a) by (reflexivity || exact A). rewrite (V_den F _ 1 _ _ b) by (reflexivity || exact Bb). reflexivity.
Qed.
Lemma in_251 : In e251_9 all_fields. Proof. cbn. tauto. Qed.
Lemma in_222 : In e222_117 all_fields. Proof. cbn. tauto. Qed.
Lemma mul_251_exact a b : wide e251_9 a -> wide e251_9 b ->
  exists o, computes e251_9 "mul" a b o /\ rep e251_9 (-1) (mx e251_9) o /\
    (eqmod e251_9 (value e251_9 o) (value e251_9 a * value e251_9 b) <-> 0 <= value e251_9 a * value e251_9 b < 2 ^ 504).
Proof.
  intros A Bb. destruct (facts2 e251_9 "F::mul_assign(&F)" _ _ _ _ _ _ _ _ _ _ _ a b in_251 eq_refl exact251_checked A Bb) as (o & rho & R & Ro & _ & D).
  exists o. split; [apply (computes_intro e251_9 1); [exact in_251|cbn; tauto|lia|exact R]|]. split; [exact Ro|].
  inversion D as [|? ? D1 D']; subst. inversion D' as [|? ? D2 _]; subst. clear D D'.
  apply floor_fact_ok in D1; [|lia]. rewrite (mul_den _ _ _ A Bb) in D1. change (56 * Z.of_nat _) with 448 in D1.
  cbn [fst snd fsum fold_right tden] in D2. rewrite (mul_den _ _ _ A Bb) in D2.
  pose proof (wide_abs _ _ in_251 A) as WA. pose proof (wide_abs _ _ in_251 Bb) as WB. change (nbits e251_9) with 251 in WA, WB. change (2 ^ room e251_9 + 1) with 17 in WA, WB.
  set (v := value e251_9 a * value e251_9 b) in *.
  rewrite D1, Z.div_div, <- Z.pow_add_r in D2 by lia. change (448 + 56) with 504 in D2.
  rewrite <- div_zero by lia. apply lost with (2 ^ 504).
  - change (Z.pow_pos 2 504) with (2 ^ 504) in D2. match type of D2 with (_ | ?x) => match goal with |- (_ | ?y) => replace y with x by ring; exact D2 end end.
  - vm_compute. reflexivity.
  - apply Z.le_lt_trans with 289; [|vm_compute; reflexivity]. apply div_abs; [lia|].
    unfold v. rewrite Z.abs_mul. apply Z.le_trans with ((17 * 2 ^ 251) * (17 * 2 ^ 251)); [apply Z.mul_le_mono_nonneg; try apply Z.abs_nonneg; assumption|vm_compute; discriminate].
Qed.
Lemma mul_222_exact a b : wide e222_117 a -> wide e222_117 b ->
  exists o, computes e222_117 "mul" a b o /\ rep e222_117 (-1) (mx e222_117) o /\
    (eqmod e222_117 (value e222_117 o) (value e222_117 a * value e222_117 b) <-> 0 <= value e222_117 a * value e222_117 b < 4588641 * 2 ^ 425).
Proof.
  intros A Bb. destruct (facts2 e222_117 "F::mul_assign(&F)" _ _ _ _ _ _ _ _ _ _ _ a b in_222 eq_refl exact222_checked A Bb) as (o & rho & R & Ro & _ & D).
  exists o. split; [apply (computes_intro e222_117 1); [exact in_222|cbn; tauto|lia|exact R]|]. split; [exact Ro|].
  inversion D as [|? ? D1 D']; subst. inversion D' as [|? ? D2 D'']; subst. inversion D'' as [|? ? D3 _]; subst. clear D D' D''.
  apply floor_fact_ok in D1; [|lia]. rewrite (mul_den _ _ _ A Bb) in D1. change (58 * Z.of_nat _) with 406 in D1.
  cbn [fst snd fsum fold_right tden] in D2, D3. rewrite (mul_den _ _ _ A Bb) in D3.
  pose proof (wide_abs _ _ in_222 A) as WA. pose proof (wide_abs _ _ in_222 Bb) as WB. change (nbits e222_117) with 222 in WA, WB. change (2 ^ room e222_117 + 1) with 4097 in WA, WB.
  set (v := value e222_117 a * value e222_117 b) in *.
  destruct D2 as (k & D2). rewrite D1, Z.div_div, <- Z.pow_add_r in D2 by lia. change (406 + 19) with 425 in D2.
  assert (E : rho "hc7_0" = 117 * (v / 2 ^ 425)) by lia. rewrite E in D3. clear D1 D2 E k rho.
  assert (Bv : Z.abs (v / 2 ^ 425) <= 2 ^ 44).
  { apply div_abs; [lia|]. unfold v. rewrite Z.abs_mul. apply Z.le_trans with ((4097 * 2 ^ 222) * (4097 * 2 ^ 222)); [apply Z.mul_le_mono_nonneg; try apply Z.abs_nonneg; assumption|vm_compute; discriminate]. }
  assert (X : 0 <= v < 4588641 * 2 ^ 425 <-> 117 * (v / 2 ^ 425) / 2 ^ 29 = 0).
  { rewrite div_zero by lia. pose proof (Z.div_mod v (2 ^ 425) ltac:(lia)) as DM. pose proof (Z.mod_pos_bound v (2 ^ 425) ltac:(lia)) as MB.
    assert (P : 0 < 2 ^ 425) by lia. revert DM MB P. generalize (2 ^ 425) as m, (v mod 2 ^ 425) as r. clearbody v. clear. intros m r DM MB P. change (2 ^ 29) with 536870912.
    set (u := v / m) in *. split; intros H.
    - assert (0 <= u) by nia. assert (u < 4588641) by nia. lia.
    - assert (0 <= u <= 4588640) by lia. nia. }
  rewrite X. apply lost with (2 ^ 232).
  - change (Z.pow_pos 2 232) with (2 ^ 232) in D3. match type of D3 with (_ | ?x) => match goal with |- (_ | ?y) => replace y with x by ring; exact D3 end end.
  - vm_compute. reflexivity.
  - apply Z.le_lt_trans with (117 * 2 ^ 15); [|vm_compute; reflexivity]. apply div_abs; [lia|]. rewrite Z.abs_mul. change (Z.abs 117) with 117. change (2 ^ 44) with (2 ^ 15 * 2 ^ 29) in Bv. lia.
Qed.

(** ** Small multiplication *)
(** ... of a value with a pending carry: the carry is folded in before the
    multiplication, so it is not multiplied *)
Definition kmax (F : fld) : Z := Z.min (2 ^ 31 - 1) (2 ^ (61 - fl_tb F) - 1).
Definition kmin (F : fld) : Z := Z.max (- 2 ^ 31) (- 2 ^ (61 - fl_tb F) + 1).
Lemma small_mul_carry_checked : forallb (fun F => is_521 F || ci "F::small_mul_assign"
  (fun F => [(- B F - 1, mx F, kmin F, kmax F, - 2 ^ 63, 2 ^ 63 - 1)]) (fun _ => 0) smx F) all_fields = true.
Proof. vm_cast_no_check (eq_refl true). Qed.
(** ... in e521_1, where carries go astray: what a word carries on *)
Definition column (i : nat) (ds : list string) (m : string) (extra : list (Z * fterm)) (x : string) : list fact :=
  [(0, [(-1, TV m); (1, TX (XMul (XI 1) (XQ 0 i 27)))]);
   (0, ((-1, TX (XMul (XI 1) (vexp 0 54 0 (S i)))) :: (2 ^ (54 * (Z.of_nat i + 1)), TQ m 27) :: extra) ++
       (2 ^ (54 * Z.of_nat (List.length ds)), TV x) :: digit_terms 54 0 ds)]%list.
Definition astray (c : Z) (x y : string) : list (Z * fterm) := [(- 2 ^ c, TQ x 54); (2 ^ c, TQ y 54)].
Lemma in_521 : In e521_1 all_fields. Proof. cbn. tauto. Qed.
Lemma low_words F lo hi a j : In F all_fields -> rep F lo hi a -> (j < fl_n F)%nat ->
  words_value (fl_w F) (firstn j a) = value F a mod 2 ^ (fl_w F * Z.of_nat j).
Proof.
  intros HF R J. pose proof R as (L & W & _).
  assert (Hw : 0 <= fl_w F) by (clear -HF; repeat (destruct HF as [<-|HF]; [vm_compute; discriminate|]); destruct HF).
  assert (App : forall l m, words_value (fl_w F) (l ++ m)%list = words_value (fl_w F) l + 2 ^ (fl_w F * Z.of_nat (List.length l)) * words_value (fl_w F) m).
  { clear -Hw. induction l as [|x l IH]; intros m; cbn [words_value app List.length].
    - change (Z.of_nat 0) with 0. rewrite Z.mul_0_r, Z.pow_0_r. lia.
    - rewrite IH. replace (fl_w F * Z.of_nat (S (List.length l))) with (fl_w F + fl_w F * Z.of_nat (List.length l)) by lia. rewrite Z.pow_add_r by nia. ring. }
  assert (LF : List.length (firstn j a) = j) by (rewrite firstn_length_le; lia).
  pose proof (words_value_bound (fl_w F) (firstn j a) Hw) as Bd. rewrite LF, <- Z.pow_mul_r in Bd by lia.
  assert (Bd' : 0 <= words_value (fl_w F) (firstn j a) < 2 ^ (fl_w F * Z.of_nat j)).
  { apply Bd. intros i Hi. assert (E : nth i (firstn j a) 0 = nth i a 0).
    { rewrite <- (firstn_skipn j a) at 2. rewrite app_nth1 by lia. reflexivity. } rewrite E. apply W. lia. }
  unfold value. rewrite <- (firstn_skipn j a) at 2. rewrite App, LF.
  rewrite (Z.mul_comm (2 ^ (fl_w F * Z.of_nat j))), Z.mod_add by (pose proof (pow2_pos (fl_w F * Z.of_nat j) ltac:(nia)); lia). symmetry. apply Z.mod_small. exact Bd'.
Qed.

Lemma column_ok a k rho o i ds m extra x : tight e521_1 a -> (i < 9)%nat -> List.length ds = i ->
  Forall (fun c => (fst c | fsum [VArr a; VInt k] rho o (snd c))) (column i ds m extra x) ->
  rho x / 2 ^ 54 = (k * (value e521_1 a mod 2 ^ (54 * (Z.of_nat i + 1))) - fsum [VArr a; VInt k] rho o extra) / 2 ^ (54 * (Z.of_nat i + 1)) - k * (nth i a 0 / 2 ^ 27) / 2 ^ 27.
Proof.
  intros T I L D. unfold column in D. apply Forall_cons_iff in D as (D1 & D). apply Forall_cons_iff in D as (D2 & _).
  destruct D1 as (q1 & D1). cbn [fst snd] in D1.
  change (fsum [VArr a; VInt k] rho o [(-1, TV m); (1, TX (XMul (XI 1) (XQ 0 i 27)))]) with (-1 * rho m + (1 * xden [VArr a; VInt k] (XMul (XI 1) (XQ 0 i 27)) + 0)) in D1.
  assert (Em : rho m = k * (nth i a 0 / 2 ^ 27)).
  { change (xden [VArr a; VInt k] (XMul (XI 1) (XQ 0 i 27))) with (k * (nth i a 0 / 2 ^ 27)) in D1. lia. }
  assert (Low : xden [VArr a; VInt k] (XMul (XI 1) (vexp 0 54 0 (S i))) = k * (value e521_1 a mod 2 ^ (54 * (Z.of_nat i + 1)))).
  { change (xden [VArr a; VInt k] (XMul (XI 1) (vexp 0 54 0 (S i)))) with (k * xden [VArr a; VInt k] (vexp 0 54 0 (S i))). f_equal.
    destruct T as (La & T). change (fl_n e521_1) with 10%nat in La.
    rewrite (vexp_den _ _ _ a) by (reflexivity || lia). cbn [skipn].
    change 54 with (fl_w e521_1) at 1. rewrite (low_words e521_1 0 (B e521_1 - 1)) by (exact in_521 || (split; [exact La|exact T]) || (change (fl_n e521_1) with 10%nat; lia)).
    f_equal. f_equal. change (fl_w e521_1) with 54. lia. }
  destruct D2 as (q2 & D2). cbn [fst snd] in D2. rewrite Z.mul_0_r in D2.
  assert (App : forall l l', fsum [VArr a; VInt k] rho o (l ++ l')%list = fsum [VArr a; VInt k] rho o l + fsum [VArr a; VInt k] rho o l').
  { induction l as [|c l IH]; intros l'; [reflexivity|]. change (fsum [VArr a; VInt k] rho o ((c :: l) ++ l')%list) with (fst c * tden [VArr a; VInt k] rho o (snd c) + fsum [VArr a; VInt k] rho o (l ++ l')%list).
    rewrite IH. change (fsum [VArr a; VInt k] rho o (c :: l)) with (fst c * tden [VArr a; VInt k] rho o (snd c) + fsum [VArr a; VInt k] rho o l). ring. }
  rewrite App in D2.
  change (fsum [VArr a; VInt k] rho o ((-1, TX (XMul (XI 1) (vexp 0 54 0 (S i)))) :: (2 ^ (54 * (Z.of_nat i + 1)), TQ m 27) :: extra))
    with (-1 * xden [VArr a; VInt k] (XMul (XI 1) (vexp 0 54 0 (S i))) + (2 ^ (54 * (Z.of_nat i + 1)) * (rho m / 2 ^ 27) + fsum [VArr a; VInt k] rho o extra)) in D2.
  change (fsum [VArr a; VInt k] rho o ((2 ^ (54 * Z.of_nat (List.length ds)), TV x) :: digit_terms 54 0 ds))
    with (2 ^ (54 * Z.of_nat (List.length ds)) * rho x + fsum [VArr a; VInt k] rho o (digit_terms 54 0 ds)) in D2.
  destruct (digit_terms_bound [VArr a; VInt k] rho o 54 ds ltac:(lia) 0 ltac:(lia)) as (r & E & R). rewrite L in *.
  rewrite E, Z.mul_0_r, Z.pow_0_r, Z.mul_1_l, Low, Em in D2. clear Low Em E App D1.
  set (u := k * (value e521_1 a mod 2 ^ (54 * (Z.of_nat i + 1)))) in *. set (h := k * (nth i a 0 / 2 ^ 27) / 2 ^ 27) in *. set (e := fsum [VArr a; VInt k] rho o extra) in *.
  clearbody u h e. replace (54 * (Z.of_nat i + 1)) with (54 * Z.of_nat i + 54) in * by lia. rewrite Z.pow_add_r in * by lia.
  assert (P : 0 < 2 ^ (54 * Z.of_nat i)) by (apply Z.pow_pos_nonneg; lia). revert R P D2. generalize (2 ^ (54 * Z.of_nat i)) as M. intros M R P D2.
  assert (X : rho x = (u - e - M * 2 ^ 54 * h) / M) by (apply Z.div_unique with r; lia).
  rewrite X, Z.div_div by lia. replace (u - e - M * 2 ^ 54 * h) with (u - e + (- h) * (M * 2 ^ 54)) by ring. rewrite Z.div_add by lia. ring.
Qed.
(** A pending carry always spoils the product. *)
Lemma produced_carry F a : In F all_fields -> produced F a -> Z.abs (carry F a) <= 4.
Proof.
  intros HF (_ & _ & T). assert (P : 200 < 2 ^ fl_tb F) by exact (B_pos F HF). assert (C : 0 < fl_C F < 200) by (clear -HF; repeat (destruct HF as [<-|HF]; [vm_compute; split; reflexivity|]); destruct HF).
  unfold carry. set (t := top F a) in *. set (m := 2 ^ fl_tb F) in *. pose proof (Z.div_mod t m ltac:(lia)). pose proof (Z.mod_pos_bound t m ltac:(lia)). nia.
Qed.
Lemma small_mul_pending F a k : In F all_fields -> F <> e521_1 -> produced F a -> is_i32 k -> Z.abs k < 2 ^ (61 - fl_tb F) -> carry F a <> 0 ->
  exists o, computes_small F "mul" a k o /\ any_rep F o /\ ~ eqmod F (value F o) (value F a * k).
Proof.
  intros HF N5 P K1 K2 C. pose proof (produced_carry F a HF P) as Cb.
  assert (Hk : kmin F <= k <= kmax F) by (unfold kmin, kmax, is_i32 in *; lia).
  assert (E5 : is_521 F = false) by (clear -HF N5; repeat (destruct HF as [<-|HF]; [first [reflexivity|now destruct N5]|]); destruct HF).
  pose proof (all_chk _ small_mul_carry_checked F HF) as K. cbv beta in K. rewrite E5 in K. cbn [orb] in K. unfold ci in K.
  apply andb_true_iff in K as [Hh K]. cbn [forallb] in K. rewrite andb_true_r in K.
  destruct (opi F _ HF Hh _ _ _ _ _ _ _ _ a k K P Hk) as (o & R & Ro & D). exists o.
  split; [apply (computes_small_intro F 1); [exact HF|cbn; tauto|lia|exact R]|]. split; [exact Ro|].
  unfold smx in D. change (xden [VArr a; VInt k] (XAdd (XMul (V F 0) (XI 1)) (XMul (XC (fl_C F)) (cy F 0)))) with
    (xden [VArr a; VInt k] (V F 0) * k + fl_C F * xden [VArr a; VInt k] (cy F 0)) in D.
  rewrite (V_den F _ 0 _ _ a), (cy_den F _ 0 a) in D by (reflexivity || exact P). apply divide_0_eq in D. rewrite D. intros E.
  assert (X : - carry F a = 0); [|lia].
  apply (lost F (value F a * k + fl_C F * carry F a) (value F a * k) (fl_C F) (- carry F a)); [| | |exact E].
  - exists 0. ring.
  - clear -HF. repeat (destruct HF as [<-|HF]; [vm_compute; reflexivity|]). destruct HF.
  - apply Z.le_lt_trans with 4; [lia|]. clear -HF. repeat (destruct HF as [<-|HF]; [vm_compute; reflexivity|]). destruct HF.
Qed.
