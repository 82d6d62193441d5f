(** What each straight-line method computes, in all nine fields. *)
From Coq Require Import ZArith List String Lia Bool.
From Verif Require Import Lang Poly Kernel Fields Kfacts.
Import ListNotations.
Local Open Scope string_scope.
Local Open Scope Z_scope.

Lemma all_chk (c : fld -> bool) : forallb c all_fields = true -> forall F, In F all_fields -> c F = true.
Proof. intros H. exact (proj1 (forallb_forall _ _) H). Qed.

Lemma runsd_det d d' F f args r o r' o' : runsd d F f args r o -> runsd d' F f args r' o' -> r = r' /\ o = o'.
Proof.
  intros H H'. specialize (H Debug (max d d') (Nat.le_max_l _ _)).
  specialize (H' Debug (max d d') (Nat.le_max_r _ _)). rewrite H in H'. injection H' as -> ->. auto.
Qed.
Lemma out1_det d F f args o r o' t : runsd d F f args [] (VArr o :: t) -> runsd d F f args r (VArr o' :: t) -> o = o'.
Proof. intros H H'. destruct (runsd_det _ _ _ _ _ _ _ _ _ H H') as [_ E]. injection E. auto. Qed.

Definition c2 f (ls : fld -> list (Z * Z * Z * Z * Z * Z)) (m : fld -> Z) (x : fld -> sexp) hs F : bool :=
  has f F && forallb (fun '(l1, h1, l2, h2, ol, oh) =>
    kcheck (fn F f) (ks2 F l1 h1 l2 h2 ol oh (m F) (x F) (hs F))) (ls F).
Definition c1 f (ls : fld -> list (Z * Z * Z * Z)) (m : fld -> Z) (x : fld -> sexp) hs F : bool :=
  has f F && forallb (fun '(l1, h1, ol, oh) =>
    kcheck (fn F f) (ks1 F l1 h1 ol oh (m F) (x F) (hs F))) (ls F).
Definition ci f (ls : fld -> list (Z * Z * Z * Z * Z * Z)) (m : fld -> Z) (x : fld -> sexp) F : bool :=
  has f F && forallb (fun '(l1, h1, l2, h2, ol, oh) =>
    kcheck (fn F f) (ksi F l1 h1 l2 h2 ol oh (m F) (x F))) (ls F).

(** ** Reading representations *)
Lemma words_value_split w l k : List.length l = S k ->
  words_value w l = words_value w (firstn k l) + (2 ^ w) ^ Z.of_nat k * nth k l 0.
Proof.
  revert l. induction k as [|k IH]; intros [|x l] L; try discriminate; simpl in L.
  - destruct l; [|discriminate]. cbn [firstn words_value nth Z.of_nat]. rewrite Z.pow_0_r. ring.
  - cbn [firstn words_value nth]. rewrite (IH l) by lia. rewrite Nat2Z.inj_succ, Z.pow_succ_r by lia. ring.
Qed.
Lemma words_value_bound w l : 0 <= w -> (forall i, (i < List.length l)%nat -> 0 <= nth i l 0 < 2 ^ w) ->
  0 <= words_value w l < (2 ^ w) ^ Z.of_nat (List.length l).
Proof.
  intros Hw. induction l as [|x l IH]; intros H.
  - simpl. lia.
  - cbn [words_value List.length]. rewrite Nat2Z.inj_succ, Z.pow_succ_r by lia.
    assert (0 <= words_value w l < (2 ^ w) ^ Z.of_nat (List.length l)) by (apply IH; intros i Hi; apply (H (S i)); simpl; lia).
    specialize (H 0%nat ltac:(simpl; lia)). simpl in H. nia.
Qed.
(** the low words *)
Definition lowpart (F : fld) (l : list Z) : Z := words_value (fl_w F) (firstn (fl_n F - 1) l).
Definition lowmod (F : fld) : Z := 2 ^ (fl_w F * Z.of_nat (fl_n F - 1)).
Lemma rep_value F lo hi l : In F all_fields -> rep F lo hi l ->
  value F l = lowpart F l + lowmod F * top F l /\ 0 <= lowpart F l < lowmod F.
Proof.
  intros H (L & A & _). destruct (layout_facts F H) as (Hn & Hw & _).
  unfold value, lowpart, lowmod, top. rewrite (words_value_split _ _ (fl_n F - 1)) by lia.
  rewrite Z.pow_mul_r by lia. split; auto.
  pose proof (words_value_bound (fl_w F) (firstn (fl_n F - 1) l) ltac:(lia)) as W.
  rewrite firstn_length_le in W by lia. apply W.
  intros i Hi. rewrite <- (firstn_skipn (fl_n F - 1) l) in A.
  specialize (A i Hi). rewrite app_nth1 in A; auto. rewrite firstn_length_le; lia.
Qed.
Lemma lowmod_pos F : In F all_fields -> 2 <= lowmod F.
Proof.
  intros H. destruct (layout_facts F H) as (Hn & Hw & _). unfold lowmod.
  change 2 with (2 ^ 1) at 1. apply Z.pow_le_mono_r; nia.
Qed.
Lemma value_top F lo hi l : In F all_fields -> rep F lo hi l -> top F l = value F l / lowmod F.
Proof.
  intros H R. destruct (rep_value F lo hi l H R) as [E Bd]. rewrite E.
  rewrite Z.mul_comm, Z.div_add by lia. rewrite Z.div_small by lia. lia.
Qed.
Lemma B_pos F : In F all_fields -> 200 < B F.
Proof. intros H. destruct (layout_facts F H) as (_ & _ & _ & _ & X & _). exact X. Qed.
Lemma pow_nbits' F : In F all_fields -> 2 ^ nbits F = lowmod F * B F.
Proof. apply pow_nbits. Qed.
(** the carry is what exceeds [nbits] bits *)
Lemma carry_value F lo hi l : In F all_fields -> rep F lo hi l -> carry F l = value F l / 2 ^ nbits F.
Proof.
  intros H R. unfold carry. rewrite (value_top F lo hi l H R), pow_nbits' by auto.
  rewrite Z.div_div; auto; pose proof (B_pos F H); pose proof (lowmod_pos F H); unfold B in *; lia.
Qed.
Lemma folded_value F lo hi l : In F all_fields -> rep F lo hi l ->
  folded F l = value F l mod 2 ^ nbits F + fl_C F * carry F l.
Proof.
  intros H R. unfold folded. rewrite Z.mod_eq by (apply Z.pow_nonzero; [lia|pose proof (nbits_pos F H); lia]).
  rewrite <- (carry_value F lo hi l H R). unfold modulus. ring.
Qed.
Lemma folded_eqmod F l : eqmod F (folded F l) (value F l).
Proof. apply divide_eqmod. unfold folded. exists (- carry F l). ring. Qed.
Lemma rep_nonneg_value F lo hi l : In F all_fields -> rep F lo hi l -> 0 <= lo -> 0 <= value F l.
Proof.
  intros H R L. destruct (rep_value F lo hi l H R) as [E Bd]. rewrite E.
  pose proof (lowmod_pos F H). destruct R as (_ & _ & T). nia.
Qed.
Lemma tight_value F l : In F all_fields -> tight F l -> 0 <= value F l < 2 ^ nbits F.
Proof.
  intros H R. destruct (rep_value F _ _ l H R) as [E Bd]. rewrite E, pow_nbits' by auto.
  pose proof (lowmod_pos F H). pose proof (B_pos F H). destruct R as (_ & _ & T). fold (B F) in T. nia.
Qed.
Lemma rep_value_tight F lo hi l : In F all_fields -> rep F lo hi l -> 0 <= value F l < 2 ^ nbits F -> tight F l.
Proof.
  intros H R V. eapply rep_top; [exact R|]. fold (B F).
  rewrite (value_top F lo hi l H R). rewrite pow_nbits' in V by auto.
  pose proof (lowmod_pos F H). pose proof (B_pos F H).
  split.
  - apply Z.div_pos; lia.
  - assert (value F l / lowmod F < B F); [|lia]. apply Z.div_lt_upper_bound; lia.
Qed.
Lemma tight_carry F l : In F all_fields -> tight F l -> carry F l = 0.
Proof.
  intros H R. rewrite (carry_value F _ _ l H R). apply Z.div_small, tight_value; auto.
Qed.
Lemma tight_folded F l : In F all_fields -> tight F l -> folded F l = value F l.
Proof. intros H R. unfold folded. rewrite tight_carry by auto. ring. Qed.
Lemma nonneg_folded F lo hi l : In F all_fields -> rep F lo hi l -> 0 <= lo -> 0 <= folded F l.
Proof.
  intros H R L. rewrite (folded_value F lo hi l H R).
  assert (0 < 2 ^ nbits F) by (apply Z.pow_pos_nonneg; [lia|pose proof (nbits_pos F H); lia]).
  pose proof (Z.mod_pos_bound (value F l) (2 ^ nbits F) H0).
  destruct (layout_facts F H) as (_ & _ & _ & C & _).
  assert (0 <= carry F l).
  { unfold carry. destruct R as (_ & _ & T). apply Z.div_pos; [lia|]. pose proof (B_pos F H). unfold B in *; lia. }
  nia.
Qed.

(** inclusions between the classes of representations *)
Lemma weaken_any F lo hi l : rep F lo hi l -> - 2 ^ 63 <= lo -> hi <= 2 ^ 63 - 1 -> any_rep F l.
Proof. intros. eapply rep_weaken; eauto. Qed.
Definition small_tops (F : fld) : bool := 16 * B F <=? 2 ^ 63 - 1.
Lemma small_tops_ok F : In F all_fields -> 16 * B F <= 2 ^ 63 - 1.
Proof. intros H. apply Z.leb_le. revert F H. apply all_chk. vm_compute. reflexivity. Qed.
Definition W (F : fld) : Z := 2 ^ (fl_tb F + room F).
Lemma W_big F : In F all_fields -> 16 * 2 ^ fl_tb F <= W F <= 2 ^ 60.
Proof.
  intros H. assert (K : (16 * 2 ^ fl_tb F <=? W F) && (W F <=? 2 ^ 60) = true) by (revert F H; apply all_chk; vm_compute; reflexivity).
  apply andb_true_iff in K as [K1 K2]. apply Z.leb_le in K1, K2. now split.
Qed.
Lemma wide_intro F lo hi l : rep F lo hi l -> - W F <= lo -> hi <= W F -> wide F l.
Proof. intros R L U. eapply rep_weaken; [exact R|exact L|exact U]. Qed.
Lemma tight_summand F l : In F all_fields -> tight F l -> summand F l.
Proof. intros H R. pose proof (B_pos F H). unfold B in *. eapply rep_weaken; [exact R|lia|lia]. Qed.
Lemma summand_loose F l : In F all_fields -> summand F l -> loose F l.
Proof. intros H R. destruct (layout_facts F H) as (_ & _ & _ & C & _). eapply rep_weaken; [exact R|lia|lia]. Qed.
Lemma tight_loose F l : In F all_fields -> tight F l -> loose F l.
Proof. intros. apply summand_loose, tight_summand; auto. Qed.
Lemma loose_wide F l : In F all_fields -> loose F l -> wide F l.
Proof.
  intros H R. destruct (layout_facts F H) as (_ & _ & _ & C & _). pose proof (B_pos F H). pose proof (W_big F H). unfold B in *.
  apply (wide_intro F _ _ _ R); lia.
Qed.
Lemma wide_any F l : In F all_fields -> wide F l -> any_rep F l.
Proof. intros H R. pose proof (W_big F H). unfold W in *. eapply rep_weaken; [exact R|lia|lia]. Qed.
Lemma loose_any F l : In F all_fields -> loose F l -> any_rep F l.
Proof. intros. apply wide_any, loose_wide; auto. Qed.
Lemma tight_any F l : In F all_fields -> tight F l -> any_rep F l.
Proof. intros. apply loose_any, tight_loose; auto. Qed.

(** ** Addition *)
Definition addx F := XAdd (foldx F 0) (foldx F 1).
Lemma add_checked : forallb (c2 "F::add_assign(&F)"
  (fun F => [(loI64, hiI64, loI64, hiI64, -1, 2 * B F); (0, hiI64, 0, hiI64, 0, 2 * B F);
             (0, B F - 1, 0, B F - 1, 0, 2 * B F - 1)]) (fun _ => 0) addx (fun _ => [])) all_fields = true.
Proof. vm_cast_no_check (eq_refl true). Qed.

Lemma add_ok F a b : In F all_fields -> any_rep F a -> any_rep F b ->
  exists o, runsd 1 F "F::add_assign(&F)" [VArr a; VArr b] [] [VArr o; VArr b] /\
    rep F (-1) (2 * B F) o /\ value F o = folded F a + folded F b /\
    (0 <= top F a -> 0 <= top F b -> rep F 0 (2 * B F) o) /\
    (tight F a -> tight F b -> summand F o).
Proof.
  intros HF A Bb. pose proof (all_chk _ add_checked F HF) as K.
  unfold c2 in K. apply andb_true_iff in K as [Hh K]. cbn [forallb] in K.
  rewrite !andb_true_iff in K. destruct K as (K1 & K2 & K3 & _).
  destruct (op2 F _ HF Hh _ _ _ _ _ _ _ _ _ a b K1 A Bb) as (o & R & Ro & D).
  exists o. split; [exact R|]. split; [exact Ro|]. split; [|split].
  - apply divide_0_eq in D. rewrite D. cbn [addx xden].
    rewrite (foldx_den F _ 0 _ _ a) by (reflexivity || exact A).
    rewrite (foldx_den F _ 1 _ _ b) by (reflexivity || exact Bb). reflexivity.
  - intros Ta Tb.
    destruct (op2 F _ HF Hh _ _ _ _ _ _ _ _ _ a b K2) as (o' & R' & Ro' & D').
    + eapply rep_top; [exact A|]. destruct A as (_ & _ & A). unfold hiI64. lia.
    + eapply rep_top; [exact Bb|]. destruct Bb as (_ & _ & Bb). unfold hiI64. lia.
    + rewrite (out1_det _ _ _ _ _ _ _ _ R R'). exact Ro'.
  - intros Ta Tb.
    destruct (op2 F _ HF Hh _ _ _ _ _ _ _ _ _ a b K3 Ta Tb) as (o' & R' & Ro' & D').
    rewrite (out1_det _ _ _ _ _ _ _ _ R R'). exact Ro'.
Qed.

(** ** Subtraction *)
Definition subx F := XAdd (XSub (foldx F 0) (foldx F 1)) (XMul (XC (2 * fl_C F)) (cy F 1)).
Lemma sub_checked : forallb (c2 "F::sub_assign(&F)"
  (fun F => [(loI64, hiI64, loI64, hiI64, - B F - 1, B F)]) (fun _ => 0) subx (fun _ => [])) all_fields = true.
Proof. vm_cast_no_check (eq_refl true). Qed.
Lemma sub_ok F a b : In F all_fields -> any_rep F a -> any_rep F b ->
  exists o, runsd 1 F "F::sub_assign(&F)" [VArr a; VArr b] [] [VArr o; VArr b] /\
    rep F (- B F - 1) (B F) o /\ value F o = folded F a - folded F b + 2 * fl_C F * carry F b.
Proof.
  intros HF A Bb. pose proof (all_chk _ sub_checked F HF) as K.
  unfold c2 in K. apply andb_true_iff in K as [Hh K]. cbn [forallb] in K.
  rewrite !andb_true_iff in K. destruct K as (K1 & _).
  destruct (op2 F _ HF Hh _ _ _ _ _ _ _ _ _ a b K1 A Bb) as (o & R & Ro & D).
  exists o. split; [exact R|]. split; [exact Ro|].
  apply divide_0_eq in D. rewrite D. cbn [subx xden]. fold (foldx F 0) (foldx F 1) (cy F 1).
  change (xden [VArr a; VArr b] (foldx F 0) - xden [VArr a; VArr b] (foldx F 1) + 2 * fl_C F * xden [VArr a; VArr b] (cy F 1)
    = folded F a - folded F b + 2 * fl_C F * carry F b).
  rewrite (foldx_den F _ 0 _ _ a) by (reflexivity || exact A).
  rewrite (foldx_den F _ 1 _ _ b) by (reflexivity || exact Bb).
  rewrite (cy_den F _ 1 b) by reflexivity. reflexivity.
Qed.

(** ** Small addition and subtraction *)
Lemma small_add_checked : forallb (ci "F::small_add_assign"
  (fun F => [(loI64, hiI64, - 2 ^ 31, 2 ^ 31 - 1, -1, B F); (0, hiI64, 0, 2 ^ 31 - 1, 0, B F)])
  (fun _ => 0) (fun F => XAdd (foldx F 0) (XI 1))) all_fields = true.
Proof. vm_cast_no_check (eq_refl true). Qed.
Lemma small_sub_checked : forallb (ci "F::small_sub_assign"
  (fun F => [(loI64, hiI64, - 2 ^ 31, 2 ^ 31 - 1, -1, B F); (0, hiI64, - 2 ^ 31, 0, 0, B F)])
  (fun _ => 0) (fun F => XSub (foldx F 0) (XI 1))) all_fields = true.
Proof. vm_cast_no_check (eq_refl true). Qed.
Lemma small_add_ok F a b : In F all_fields -> any_rep F a -> is_i32 b ->
  exists o, runsd 1 F "F::small_add_assign" [VArr a; VInt b] [] [VArr o; VInt b] /\
    rep F (-1) (B F) o /\ value F o = folded F a + b /\
    (0 <= top F a -> 0 <= b -> rep F 0 (B F) o).
Proof.
  intros HF A Bb. pose proof (all_chk _ small_add_checked F HF) as K.
  unfold ci in K. apply andb_true_iff in K as [Hh K]. cbn [forallb] in K.
  rewrite !andb_true_iff in K. destruct K as (K1 & K2 & _).
  destruct (opi F _ HF Hh _ _ _ _ _ _ _ _ a b K1 A Bb) as (o & R & Ro & D).
  exists o. split; [exact R|]. split; [exact Ro|]. split.
  - apply divide_0_eq in D. rewrite D. cbn [xden].
    rewrite (foldx_den F _ 0 _ _ a) by (reflexivity || exact A). reflexivity.
  - intros Ta Tb.
    destruct (opi F _ HF Hh _ _ _ _ _ _ _ _ a b K2) as (o' & R' & Ro' & D').
    + eapply rep_top; [exact A|]. destruct A as (_ & _ & A). unfold hiI64. lia.
    + unfold is_i32 in Bb. lia.
    + rewrite (out1_det _ _ _ _ _ _ _ _ R R'). exact Ro'.
Qed.
Lemma small_sub_ok F a b : In F all_fields -> any_rep F a -> is_i32 b ->
  exists o, runsd 1 F "F::small_sub_assign" [VArr a; VInt b] [] [VArr o; VInt b] /\
    rep F (-1) (B F) o /\ value F o = folded F a - b /\
    (0 <= top F a -> b <= 0 -> rep F 0 (B F) o).
Proof.
  intros HF A Bb. pose proof (all_chk _ small_sub_checked F HF) as K.
  unfold ci in K. apply andb_true_iff in K as [Hh K]. cbn [forallb] in K.
  rewrite !andb_true_iff in K. destruct K as (K1 & K2 & _).
  destruct (opi F _ HF Hh _ _ _ _ _ _ _ _ a b K1 A Bb) as (o & R & Ro & D).
  exists o. split; [exact R|]. split; [exact Ro|]. split.
  - apply divide_0_eq in D. rewrite D. cbn [xden].
    rewrite (foldx_den F _ 0 _ _ a) by (reflexivity || exact A). reflexivity.
  - intros Ta Tb.
    destruct (opi F _ HF Hh _ _ _ _ _ _ _ _ a b K2) as (o' & R' & Ro' & D').
    + eapply rep_top; [exact A|]. destruct A as (_ & _ & A). unfold hiI64. lia.
    + unfold is_i32 in Bb. lia.
    + rewrite (out1_det _ _ _ _ _ _ _ _ R R'). exact Ro'.
Qed.

(** ** Small multiplication: exact on values without pending carry, for
    multipliers that fit in the top word; not in e521_1, whose carries are miswired *)
Definition smhi (F : fld) := Z.min (2 ^ 31 - 1) (2 ^ (63 - fl_tb F) - 1).
Definition smlo (F : fld) := Z.max (- 2 ^ 31) (- 2 ^ (63 - fl_tb F) + 1).
Definition smx F := XAdd (XMul (V F 0) (XI 1)) (XMul (XC (fl_C F)) (cy F 0)).
Definition is_521 (F : fld) : bool := fl_C F =? 1.
Lemma small_mul_checked : forallb (fun F => is_521 F || ci "F::small_mul_assign"
  (fun F => [(0, B F - 1, smlo F, smhi F, loI64, hiI64); (0, B F - 1, 0, smhi F, 0, hiI64)])
  (fun _ => 0) smx F) all_fields = true.
Proof. vm_cast_no_check (eq_refl true). Qed.
Lemma not_521 F : In F all_fields -> F <> e521_1 -> is_521 F = false.
Proof. intros H N. repeat (destruct H as [<-|H]; [reflexivity || (exfalso; apply N; reflexivity)|]). destruct H. Qed.
Lemma small_mul_ok F a b : In F all_fields -> F <> e521_1 -> tight F a -> smallmul_ok F b ->
  exists o, runsd 1 F "F::small_mul_assign" [VArr a; VInt b] [] [VArr o; VInt b] /\
    any_rep F o /\ value F o = value F a * b /\ (0 <= b -> 0 <= top F o).
Proof.
  intros HF N A [Bb Bc]. pose proof (all_chk _ small_mul_checked F HF) as K. simpl in K.
  rewrite (not_521 F HF N) in K. cbn [orb] in K.
  unfold ci in K. apply andb_true_iff in K as [Hh K]. cbn [forallb] in K.
  rewrite !andb_true_iff in K. destruct K as (K1 & K2 & _).
  destruct (opi F _ HF Hh _ _ _ _ _ _ _ _ a b K1) as (o & R & Ro & D).
  { exact A. } { unfold smlo, smhi, is_i32 in *. lia. }
  exists o. split; [exact R|]. split; [exact Ro|]. split.
  - apply divide_0_eq in D. rewrite D. unfold smx. cbn [xden]. 
    change (xden [VArr a; VInt b] (V F 0) * b + fl_C F * xden [VArr a; VInt b] (cy F 0) = value F a * b).
    rewrite (V_den F _ 0 _ _ a) by (reflexivity || exact A).
    rewrite (cy_den F _ 0 a) by reflexivity. rewrite tight_carry by auto. ring.
  - intros Tb.
    destruct (opi F _ HF Hh _ _ _ _ _ _ _ _ a b K2) as (o' & R' & Ro' & D').
    { exact A. } { unfold smlo, smhi, is_i32 in *. lia. }
    rewrite (out1_det _ _ _ _ _ _ _ _ R R'). apply Ro'.
Qed.

(** ** Multiplication and squaring *)
Definition mulx F := XMul (V F 0) (V F 1).
Definition sqx F := XMul (V F 0) (V F 0).
Definition is_251 (F : fld) : bool := fl_C F =? 9.
Definition is_222 (F : fld) : bool := fl_C F =? 117.
Definition mul_ranges (F : fld) : list (Z * Z * Z * Z * Z * Z) :=
  if is_251 F then
    [(0, 2 * B F - 1, 0, 2 * B F - 1, 0, mx F); (0, mx F, 0, B F, 0, mx F); (0, B F, 0, mx F, 0, mx F);
     (- B F - 1, -1, - B F - 1, -1, -1, mx F)]
  else
    [(0, mx F, 0, mx F, 0, mx F);
     if is_222 F then (- B F - 1, -1, - B F - 1, -1, -1, mx F)
     else (- W F, W F, - W F, W F, -1, mx F)].
(* in these two fields the sign and size of the whole product matter *)
Definition mul_hints (F : fld) : hints :=
  if is_251 F then [("d8", (["d0"; "d1"; "d2"; "d3"; "d4"; "d5"; "d6"; "d7"], mulx F))]
  else if is_222 F then [("d7", (["d0"; "d1"; "d2"; "d3"; "d4"; "d5"; "d6"], mulx F))] else [].
Definition sq_hints (F : fld) : hints :=
  if is_222 F then [("d7", (["d0"; "d1"; "d2"; "d3"; "d4"; "d5"; "d6"], sqx F))] else [].
Lemma mul_checked : forallb (c2 "F::mul_assign(&F)" mul_ranges modulus mulx mul_hints) all_fields = true.
Proof. vm_cast_no_check (eq_refl true). Qed.
Lemma square_checked : forallb (c1 "F::square"
  (fun F => [(0, mx F, 0, mx F); if is_222 F then (- B F - 1, -1, -1, mx F) else (- W F, W F, -1, mx F)]) modulus sqx sq_hints)
  all_fields = true.
Proof. vm_cast_no_check (eq_refl true). Qed.

Lemma not_251 F : In F all_fields -> F <> e251_9 -> is_251 F = false.
Proof. intros H N. repeat (destruct H as [<-|H]; [reflexivity || (exfalso; apply N; reflexivity)|]). destruct H. Qed.
Lemma not_222 F : In F all_fields -> F <> e222_117 -> is_222 F = false.
Proof. intros H N. repeat (destruct H as [<-|H]; [reflexivity || (exfalso; apply N; reflexivity)|]). destruct H. Qed.

Lemma is_251_eq F : In F all_fields -> is_251 F = true -> F = e251_9.
Proof. intros H E. repeat (destruct H as [<-|H]; [reflexivity || discriminate E|]). destruct H. Qed.
Lemma is_222_eq F : In F all_fields -> is_222 F = true -> F = e222_117.
Proof. intros H E. repeat (destruct H as [<-|H]; [reflexivity || discriminate E|]). destruct H. Qed.
Lemma near_summand F l : In F all_fields -> near F l -> summand F l.
Proof. intros H R. pose proof (B_pos F H). unfold B in *. eapply rep_weaken; [exact R|lia|lia]. Qed.
Lemma tight_near F l : In F all_fields -> tight F l -> near F l.
Proof. intros H R. eapply rep_weaken; [exact R|lia|lia]. Qed.
Lemma negative_wide F l : In F all_fields -> negative F l -> wide F l.
Proof. intros H R. pose proof (B_pos F H). pose proof (W_big F H). unfold B in *. apply (wide_intro F _ _ _ R); lia. Qed.
Lemma negative_loose F l : negative F l -> loose F l -> False.
Proof. intros (_ & _ & T) (_ & _ & U). lia. Qed.

Lemma mul_ok F a b : In F all_fields -> mul_safe F a b ->
  exists o, runsd 1 F "F::mul_assign(&F)" [VArr a; VArr b] [] [VArr o; VArr b] /\
    rep F (-1) (mx F) o /\ eqmod F (value F o) (value F a * value F b) /\
    (loose F a -> loose F b -> loose F o).
Proof.
  intros HF S. pose proof (all_chk _ mul_checked F HF) as K.
  unfold c2, mul_ranges in K. apply andb_true_iff in K as [Hh K].
  assert (G : forall l1 h1 l2 h2 ol, kcheck (fn F "F::mul_assign(&F)")
      (ks2 F l1 h1 l2 h2 ol (mx F) (modulus F) (mulx F) (mul_hints F)) = true ->
      rep F l1 h1 a -> rep F l2 h2 b -> -1 <= ol ->
      exists o, runsd 1 F "F::mul_assign(&F)" [VArr a; VArr b] [] [VArr o; VArr b] /\
        rep F ol (mx F) o /\ eqmod F (value F o) (value F a * value F b)).
  { intros l1 h1 l2 h2 ol K0 A Bb Ho.
    destruct (op2 F _ HF Hh _ _ _ _ _ _ _ _ _ a b K0 A Bb) as (o & R & Ro & D).
    exists o. split; [exact R|]. split; [exact Ro|].
    apply divide_eqmod. unfold mulx in D. cbn [xden] in D.
    change (xden [VArr a; VArr b] (XMul (V F 0) (V F 1))) with (xden [VArr a; VArr b] (V F 0) * xden [VArr a; VArr b] (V F 1)) in D.
    rewrite (V_den F _ 0 _ _ a) in D by (reflexivity || exact A).
    rewrite (V_den F _ 1 _ _ b) in D by (reflexivity || exact Bb). exact D. }
  assert (POS : forall l1 h1 l2 h2, kcheck (fn F "F::mul_assign(&F)")
      (ks2 F l1 h1 l2 h2 0 (mx F) (modulus F) (mulx F) (mul_hints F)) = true ->
      rep F l1 h1 a -> rep F l2 h2 b ->
      exists o, runsd 1 F "F::mul_assign(&F)" [VArr a; VArr b] [] [VArr o; VArr b] /\
        rep F (-1) (mx F) o /\ eqmod F (value F o) (value F a * value F b) /\
        (loose F a -> loose F b -> loose F o)).
  { intros l1 h1 l2 h2 K0 A Bb. destruct (G _ _ _ _ _ K0 A Bb ltac:(lia)) as (o & R & Ro & E).
    exists o; split; [exact R|]; split; [eapply rep_weaken; [exact Ro|lia|lia]|]; split; [exact E|intros; exact Ro]. }
  assert (NEG : forall l1 h1 l2 h2, kcheck (fn F "F::mul_assign(&F)")
      (ks2 F l1 h1 l2 h2 (-1) (mx F) (modulus F) (mulx F) (mul_hints F)) = true ->
      rep F l1 h1 a -> rep F l2 h2 b -> negative F a ->
      exists o, runsd 1 F "F::mul_assign(&F)" [VArr a; VArr b] [] [VArr o; VArr b] /\
        rep F (-1) (mx F) o /\ eqmod F (value F o) (value F a * value F b) /\
        (loose F a -> loose F b -> loose F o)).
  { intros l1 h1 l2 h2 K0 A Bb N. destruct (G _ _ _ _ _ K0 A Bb ltac:(lia)) as (o & R & Ro & E).
    exists o; split; [exact R|]; split; [exact Ro|]; split; [exact E|].
    intros L. destruct (negative_loose F a N L). }
  destruct (is_251 F) eqn:E251.
  - cbn [forallb] in K. rewrite !andb_true_iff in K. destruct K as (K1 & K2 & K3 & K4 & _).
    destruct S as [N|N|A Bb|A Bb|A Bb|A Bb]; try (apply is_251_eq in E251; [contradiction|auto]).
    + apply (NEG _ _ _ _ K4 A Bb A).
    + apply (POS _ _ _ _ K1 A Bb).
    + apply (POS _ _ _ _ K2 A Bb).
    + apply (POS _ _ _ _ K3 A Bb).
  - cbn [forallb] in K. rewrite !andb_true_iff in K. destruct K as (K1 & K2 & _).
    assert (L : loose F a -> loose F b -> exists o, runsd 1 F "F::mul_assign(&F)" [VArr a; VArr b] [] [VArr o; VArr b] /\
        rep F (-1) (mx F) o /\ eqmod F (value F o) (value F a * value F b) /\ (loose F a -> loose F b -> loose F o))
      by (apply (POS _ _ _ _ K1)).
    assert (W : is_222 F = false -> wide F a -> wide F b -> exists o, runsd 1 F "F::mul_assign(&F)" [VArr a; VArr b] [] [VArr o; VArr b] /\
        rep F (-1) (mx F) o /\ eqmod F (value F o) (value F a * value F b) /\ (loose F a -> loose F b -> loose F o)).
    { intros N A Bb. rewrite N in K2. destruct (G _ _ _ _ _ K2 A Bb ltac:(lia)) as (o & R & Ro & E).
      exists o; split; [exact R|]; split; [exact Ro|]; split; [exact E|].
      intros La Lb. destruct (G _ _ _ _ _ K1 La Lb ltac:(lia)) as (o' & R' & Ro' & E').
      rewrite (out1_det _ _ _ _ _ _ _ _ R R'). exact Ro'. }
    destruct S as [N N' A Bb|N A Bb|A Bb|A Bb|A Bb|A Bb].
    + apply W; auto. apply not_222; auto.
    + apply L; auto.
    + destruct (is_222 F) eqn:E222; [apply (NEG _ _ _ _ K2 A Bb A)|apply W; auto using negative_wide].
    + apply L; auto using summand_loose.
    + apply L; auto using summand_loose, near_summand.
    + apply L; auto using summand_loose, near_summand.
Qed.

Lemma square_ok F a : In F all_fields -> square_safe F a ->
  exists o, runsd 1 F "F::square" [VArr a] [] [VArr o] /\
    rep F (-1) (mx F) o /\ eqmod F (value F o) (value F a * value F a) /\ (loose F a -> loose F o).
Proof.
  intros HF S. pose proof (all_chk _ square_checked F HF) as K.
  unfold c1 in K. apply andb_true_iff in K as [Hh K]. cbn [forallb] in K.
  rewrite !andb_true_iff in K. destruct K as (K1 & K2 & _).
  assert (G : forall l1 h1 ol, kcheck (fn F "F::square")
      (ks1 F l1 h1 ol (mx F) (modulus F) (sqx F) (sq_hints F)) = true -> rep F l1 h1 a ->
      exists o, runsd 1 F "F::square" [VArr a] [] [VArr o] /\
        rep F ol (mx F) o /\ eqmod F (value F o) (value F a * value F a)).
  { intros l1 h1 ol K A.
    destruct (op1 F _ HF Hh _ _ _ _ _ _ _ a K A) as (o & R & Ro & D).
    exists o. split; [exact R|]. split; [exact Ro|].
    apply divide_eqmod. unfold sqx in D. cbn [xden] in D.
    change (xden [VArr a] (XMul (V F 0) (V F 0))) with (xden [VArr a] (V F 0) * xden [VArr a] (V F 0)) in D.
    rewrite (V_den F _ 0 _ _ a) in D by (reflexivity || exact A). exact D. }
  assert (W : is_222 F = false -> wide F a -> exists o, runsd 1 F "F::square" [VArr a] [] [VArr o] /\
      rep F (-1) (mx F) o /\ eqmod F (value F o) (value F a * value F a) /\ (loose F a -> loose F o)).
  { intros N A. rewrite N in K2. destruct (G _ _ _ K2 A) as (o & R & Ro & E).
    exists o; split; [exact R|]; split; [exact Ro|]; split; [exact E|].
    intros L. destruct (G _ _ _ K1 L) as (o' & R' & Ro' & E').
    rewrite (out1_det _ _ _ _ _ _ _ _ R R'). exact Ro'. }
  destruct S as [A|[A|[N A]]].
  - destruct (G _ _ _ K1 A) as (o & R & Ro & E).
    exists o; split; [exact R|]; split; [eapply rep_weaken; [exact Ro|lia|lia]|]; split; [exact E|intros; exact Ro].
  - destruct (is_222 F) eqn:E222; [|apply W; auto using negative_wide].
    destruct (G _ _ _ K2 A) as (o & R & Ro & E).
    exists o; split; [exact R|]; split; [exact Ro|]; split; [exact E|]. intros L. destruct (negative_loose F a A L).
  - apply W; auto. apply not_222; auto.
Qed.
