(** Modular arithmetic on lists of 63-bit machine integers, least significant
    first, for the computations on group orders that integers in binary are too
    slow for.  Every operation is right modulo n whatever its arguments.  This
    is the only file that uses Coq's primitive integers, whose specification
    consists of axioms of the standard library (Coq.Numbers.Cyclic.Int63). *)
From Coq Require Import ZArith Znumtheory List Bool Lia Uint63 Setoid.
From Verif Require Import NumTheory Primality.
Import ListNotations.
Local Open Scope Z_scope.

Local Notation "# x" := (to_Z x) (at level 9).
Fixpoint zof (l : list int) : Z := match l with [] => 0 | x :: t => #x + wB * zof t end.
Lemma limb x : 0 <= #x < wB. Proof. apply to_Z_bounded. Qed.
Lemma wB_big : 2 ^ 60 < wB. Proof. reflexivity. Qed.

(** high and low words of x y + c + t *)
Definition ma (x y c t : int) : int * int :=
  let (h, l) := mulc x y in
  match addc l c with
  | C0 l1 => match addc l1 t with C0 l2 => (h, l2) | C1 l2 => (add h 1, l2) end
  | C1 l1 => match addc l1 t with C0 l2 => (add h 1, l2) | C1 l2 => (add h 2, l2) end
  end.
Lemma addc_case x y : match addc x y with C0 z => #x + #y = #z | C1 z => #x + #y = #z + wB end.
Proof. pose proof (addc_spec x y) as H. destruct (addc x y); cbn [interp_carry] in H; lia. Qed.
Lemma ma_ok x y c t : #x * #y + #c + #t = #(fst (ma x y c t)) * wB + #(snd (ma x y c t)).
Proof.
  unfold ma. pose proof (mulc_spec x y) as M. destruct (mulc x y) as (h, l). cbn [fst snd] in M.
  pose proof (limb x). pose proof (limb y). pose proof (limb c). pose proof (limb t). pose proof (limb h). pose proof (limb l).
  assert (U : #x * #y <= (wB - 1) * (wB - 1)) by nia. pose proof wB_big.
  pose proof (addc_case l c) as A. destruct (addc l c) as [l1|l1]; pose proof (limb l1);
  pose proof (addc_case l1 t) as B; destruct (addc l1 t) as [l2|l2]; pose proof (limb l2); cbn [fst snd].
  - lia.
  - rewrite add_spec. change (#1) with 1. rewrite Z.mod_small; nia.
  - rewrite add_spec. change (#1) with 1. rewrite Z.mod_small; nia.
  - rewrite add_spec. change (#2) with 2. rewrite Z.mod_small; nia.
Qed.

(** acc + x a + c *)
Fixpoint bump (l : list int) (c : int) : list int :=
  if eqb c 0 then l else
  match l with [] => [c] | t :: l => match addc t c with C0 r => r :: l | C1 r => r :: bump l 1 end end.
Lemma bump_ok l : forall c, zof (bump l c) = zof l + #c.
Proof.
  induction l as [|t l IH]; intros c; cbn [bump]; destruct (eqb c 0) eqn:E.
  - apply eqb_correct in E. subst c. cbn [zof]. now change (#0) with 0.
  - cbn [zof]. lia.
  - apply eqb_correct in E. subst c. cbn [zof]. change (#0) with 0. lia.
  - pose proof (addc_case t c) as A. destruct (addc t c); cbn [zof]; [lia|]. rewrite IH. change (#1) with 1. lia.
Qed.
Fixpoint addmul (x : int) (a acc : list int) (c : int) : list int :=
  match a with
  | [] => bump acc c
  | y :: a =>
    match acc with
    | [] => let (h, l) := ma x y c 0 in l :: addmul x a [] h
    | t :: acc => let (h, l) := ma x y c t in l :: addmul x a acc h
    end
  end.
Lemma addmul_ok x a : forall acc c, zof (addmul x a acc c) = zof acc + #x * zof a + #c.
Proof.
  induction a as [|y a IH]; intros acc c; cbn [addmul].
  - rewrite bump_ok. cbn [zof]. lia.
  - destruct acc as [|t acc].
    + pose proof (ma_ok x y c 0) as M. change (#0) with 0 in M. destruct (ma x y c 0) as (h, l). cbn [fst snd zof] in *. rewrite IH. cbn [zof]. lia.
    + pose proof (ma_ok x y c t) as M. destruct (ma x y c t) as (h, l). cbn [fst snd zof] in *. rewrite IH. lia.
Qed.
Fixpoint mul (a b : list int) : list int := match a with [] => [] | x :: a => addmul x b (0%uint63 :: mul a b) 0 end.
Lemma mul_ok a b : zof (mul a b) = zof a * zof b.
Proof. induction a as [|x a IH]; cbn [mul zof]; [reflexivity|]. rewrite addmul_ok. cbn [zof]. rewrite IH. change (#0) with 0. lia. Qed.
Fixpoint plus (a b : list int) (c : bool) : list int :=
  match a, b with
  | [], _ => if c then bump b 1 else b
  | _, [] => if c then bump a 1 else a
  | x :: a, y :: b => match (if c then addcarryc x y else addc x y) with C0 r => r :: plus a b false | C1 r => r :: plus a b true end
  end.
Lemma addcarryc_case x y : match addcarryc x y with C0 z => #x + #y + 1 = #z | C1 z => #x + #y + 1 = #z + wB end.
Proof. pose proof (addcarryc_spec x y) as H. destruct (addcarryc x y); cbn [interp_carry] in H; lia. Qed.
Lemma plus_ok a : forall b c, zof (plus a b c) = zof a + zof b + Z.b2z c.
Proof.
  induction a as [|x a IH]; intros b c; cbn [plus].
  - destruct c; [rewrite bump_ok; change (#1) with 1|]; cbn [zof Z.b2z]; lia.
  - destruct b as [|y b]; [destruct c; [rewrite bump_ok; change (#1) with 1|]; cbn [zof Z.b2z]; lia|].
    destruct c.
    + pose proof (addcarryc_case x y) as A. destruct (addcarryc x y); cbn [zof]; rewrite IH; cbn [Z.b2z]; lia.
    + pose proof (addc_case x y) as A. destruct (addc x y); cbn [zof]; rewrite IH; cbn [Z.b2z]; lia.
Qed.
(** a - b, or nothing; high zero words are dropped *)
Definition snoc (x : int) (l : list int) : list int := match l with [] => if eqb x 0 then [] else [x] | _ => x :: l end.
Lemma snoc_ok x l : zof (snoc x l) = #x + wB * zof l.
Proof.
  destruct l; cbn [snoc]; [|reflexivity]. destruct (eqb x 0) eqn:E; [|reflexivity]. apply eqb_correct in E. subst x. cbn [zof]. change (#0) with 0. lia.
Qed.
Fixpoint minus (a b : list int) (c : bool) : option (list int) :=
  match a with
  | [] => match b with [] => if c then None else Some [] | _ => None end
  | x :: a =>
    let y := match b with [] => 0%uint63 | y :: _ => y end in
    let b := match b with [] => [] | _ :: b => b end in
    match (if c then subcarryc x y else subc x y) with
    | C0 r => match minus a b false with Some l => Some (snoc r l) | None => None end
    | C1 r => match minus a b true with Some l => Some (snoc r l) | None => None end
    end
  end.
Lemma subc_case x y : match subc x y with C0 z => #x - #y = #z | C1 z => #x - #y = #z - wB end.
Proof. pose proof (subc_spec x y) as H. destruct (subc x y); cbn [interp_carry] in H; lia. Qed.
Lemma subcarryc_case x y : match subcarryc x y with C0 z => #x - #y - 1 = #z | C1 z => #x - #y - 1 = #z - wB end.
Proof. pose proof (subcarryc_spec x y) as H. destruct (subcarryc x y); cbn [interp_carry] in H; lia. Qed.
Lemma minus_ok a : forall b c r, minus a b c = Some r -> zof r = zof a - zof b - Z.b2z c.
Proof.
  induction a as [|x a IH]; intros b c r; cbn [minus].
  - destruct b; [|discriminate]. destruct c; [discriminate|]. intros H. injection H as <-. reflexivity.
  - set (y := match b with [] => 0%uint63 | y :: _ => y end). set (b' := match b with [] => [] | _ :: b => b end).
    assert (B : zof b = #y + wB * zof b') by (unfold y, b'; destruct b; [now change (#0) with 0|reflexivity]).
    rewrite B. destruct c.
    + pose proof (subcarryc_case x y) as A. destruct (subcarryc x y) as [z|z].
      * destruct (minus a b' false) as [l|] eqn:E; [|discriminate]. apply IH in E. intros H. injection H as <-. rewrite snoc_ok, E. cbn [zof Z.b2z]. lia.
      * destruct (minus a b' true) as [l|] eqn:E; [|discriminate]. apply IH in E. intros H. injection H as <-. rewrite snoc_ok, E. cbn [zof Z.b2z]. lia.
    + pose proof (subc_case x y) as A. destruct (subc x y) as [z|z].
      * destruct (minus a b' false) as [l|] eqn:E; [|discriminate]. apply IH in E. intros H. injection H as <-. rewrite snoc_ok, E. cbn [zof Z.b2z]. lia.
      * destruct (minus a b' true) as [l|] eqn:E; [|discriminate]. apply IH in E. intros H. injection H as <-. rewrite snoc_ok, E. cbn [zof Z.b2z]. lia.
Qed.
(** the k words of z mod wB^k *)
Fixpoint ofZ (k : nat) (z : Z) : list int := match k with O => [] | S k => of_Z z :: ofZ k (Z.shiftr z 63) end.
Lemma ofZ_ok k : forall z, 0 <= z < wB ^ Z.of_nat k -> zof (ofZ k z) = z.
Proof.
  induction k as [|k IH]; intros z H.
  - cbn [ofZ zof]. cbn [Z.of_nat] in H. rewrite Z.pow_0_r in H. lia.
  - cbn [ofZ zof]. rewrite Nat2Z.inj_succ, Z.pow_succ_r in H by lia. rewrite of_Z_spec, IH.
    + rewrite Z.shiftr_div_pow2 by lia. change (2 ^ 63) with wB. pose proof (Z.div_mod z wB). pose proof wB_big. lia.
    + rewrite Z.shiftr_div_pow2 by lia. change (2 ^ 63) with wB. pose proof wB_big. split; [apply Z.div_pos; lia|apply Z.div_lt_upper_bound; lia].
Qed.

(** ** Modulo n *)
Record modl := mkmod { nn : list int; mu : list int; lo : nat; hi : nat; big : list int; neg1 : list int }.
Definition modl_of (k : nat) (n : Z) : modl :=
  mkmod (ofZ k n) (ofZ (S k) (wB ^ Z.of_nat (2 * k) / n)) (k - 1) (k + 1) (mul [1024%uint63] (ofZ k n)) (ofZ k (n - 1)).
Definition mod_ok (n : Z) (M : modl) : Prop := cong n (zof (nn M)) 0 /\ cong n (zof (big M)) 0 /\ cong n (zof (neg1 M)) (-1).
Lemma modl_of_ok k n : 0 < n < wB ^ Z.of_nat k -> mod_ok n (modl_of k n).
Proof.
  intros H. unfold mod_ok, modl_of. cbn [nn big neg1]. rewrite mul_ok, !ofZ_ok by lia.
  split; [exists 1; lia|]. split; [exists (zof [1024%uint63]); lia|]. exists 1. lia.
Qed.
Definition fred (M : modl) (x : list int) : list int :=
  match minus x (mul (skipn (hi M) (mul (skipn (lo M) x) (mu M))) (nn M)) false with Some r => r | None => x end.
Definition fmul (M : modl) (a b : list int) : list int := fred M (mul a b).
Definition fadd (a b : list int) : list int := plus a b false.
Definition fsub (M : modl) (a b : list int) : list int :=
  match minus (plus a (big M) false) b false with Some r => r | None => plus a (mul (neg1 M) b) false end.
Section Mod.
Variable n : Z.
Variable M : modl.
Hypothesis H : mod_ok n M.
Lemma fred_ok x : cong n (zof (fred M x)) (zof x).
Proof.
  destruct H as (HN & _). unfold fred. destruct (minus _ _ _) eqn:E; [|reflexivity]. apply minus_ok in E. rewrite E, mul_ok, HN. apply cong_eq. cbn [Z.b2z]. ring.
Qed.
Lemma fmul_ok a b : cong n (zof (fmul M a b)) (zof a * zof b).
Proof. unfold fmul. rewrite fred_ok, mul_ok. reflexivity. Qed.
Lemma fadd_ok a b : zof (fadd a b) = zof a + zof b.
Proof. unfold fadd. rewrite plus_ok. cbn [Z.b2z]. lia. Qed.
Lemma fsub_ok a b : cong n (zof (fsub M a b)) (zof a - zof b).
Proof.
  destruct H as (_ & HB & H1). unfold fsub. destruct (minus _ _ _) eqn:E.
  - apply minus_ok in E. rewrite E, plus_ok, HB. apply cong_eq. cbn [Z.b2z]. ring.
  - rewrite plus_ok, mul_ok, H1. apply cong_eq. cbn [Z.b2z]. ring.
Qed.
Fixpoint fpow (a : list int) (e : positive) : list int :=
  match e with
  | xH => a
  | xO e => let r := fpow a e in fmul M r r
  | xI e => let r := fpow a e in fmul M (fmul M r r) a
  end.
Lemma fpow_ok a e : cong n (zof (fpow a e)) (zof a ^ Zpos e).
Proof.
  induction e as [e IH|e IH|]; cbn [fpow].
  - rewrite !fmul_ok, IH. apply cong_eq. replace (Zpos e~1) with (Zpos e + Zpos e + 1) by lia. rewrite !Z.pow_add_r by lia. ring.
  - rewrite !fmul_ok, IH. apply cong_eq. replace (Zpos e~0) with (Zpos e + Zpos e) by lia. rewrite !Z.pow_add_r by lia. ring.
  - now rewrite Z.pow_1_r.
Qed.
End Mod.

(** ** Powers of integers and in Z[sqrt dd], for the checkers of Primality.v *)
Definition fast_pow (k : nat) (n a e : Z) : Z :=
  match e with Zpos e => zof (fpow (modl_of k n) (ofZ k (a mod n)) e) | _ => 1 end.
Lemma fast_powers k n : 0 < n < wB ^ Z.of_nat k -> powers n (fast_pow k n).
Proof.
  intros N a e E. destruct e as [|e|e]; [reflexivity| |lia]. cbn [fast_pow]. rewrite (fpow_ok n _ (modl_of_ok k n N)), ofZ_ok.
  - apply cong_pow. apply cong_mod. lia.
  - pose proof (Z.mod_pos_bound a n). lia.
Qed.
Definition fgi : Type := (list int * list int)%type.
Definition fgmul (M : modl) (dd : list int) (a b : fgi) : fgi :=
  (fadd (fmul M (fst a) (fst b)) (fmul M dd (fmul M (snd a) (snd b))), fadd (fmul M (fst a) (snd b)) (fmul M (snd a) (fst b))).
Fixpoint fgpow (M : modl) (dd : list int) (a : fgi) (e : positive) : fgi :=
  match e with
  | xH => a
  | xO e => let r := fgpow M dd a e in fgmul M dd r r
  | xI e => let r := fgpow M dd a e in fgmul M dd a (fgmul M dd r r)
  end.
Definition gzof (a : fgi) : gi := (zof (fst a), zof (snd a)).
Lemma fgmul_ok n M D dd a b : mod_ok n M -> cong n (zof D) dd -> gcong n (gzof (fgmul M D a b)) (gmul dd (gzof a) (gzof b)).
Proof.
  intros H E. unfold gcong, gmul, gzof, fgmul. cbn [fst snd]. rewrite !fadd_ok, !(fmul_ok n M H), E. split; reflexivity.
Qed.
Lemma fgpow_ok n M D dd a e : mod_ok n M -> cong n (zof D) dd -> gcong n (gzof (fgpow M D a e)) (gpow dd (gzof a) (Pos.to_nat e)).
Proof.
  intros H E. induction e as [e IH|e IH|]; cbn [fgpow].
  - replace (Pos.to_nat e~1) with (S (Pos.to_nat e + Pos.to_nat e)) by lia. cbn [gpow]. rewrite gpow_add.
    etransitivity; [apply fgmul_ok; eassumption|]. apply gcong_mul; [reflexivity|]. etransitivity; [apply fgmul_ok; eassumption|]. now apply gcong_mul.
  - replace (Pos.to_nat e~0) with (Pos.to_nat e + Pos.to_nat e)%nat by lia. rewrite gpow_add.
    etransitivity; [apply fgmul_ok; eassumption|]. now apply gcong_mul.
  - change (Pos.to_nat 1) with 1%nat. cbn [gpow]. now rewrite gmul_1_r.
Qed.
Definition fast_gpow (k : nat) (dd n : Z) (a : gi) (z : Z) : gi :=
  gzof (fgpow (modl_of k n) (ofZ k (dd mod n)) (ofZ k (fst a mod n), ofZ k (snd a mod n)) (Z.to_pos z)).
Lemma fast_gpowers k dd n : 0 < n < wB ^ Z.of_nat k -> gpowers dd n (fast_gpow k dd n).
Proof.
  intros N a z Z0. unfold fast_gpow. assert (B : forall x, 0 <= x mod n < wB ^ Z.of_nat k) by (intros x; pose proof (Z.mod_pos_bound x n); lia).
  etransitivity; [apply (fgpow_ok n _ _ dd); [now apply modl_of_ok|rewrite ofZ_ok by apply B; apply cong_mod; lia]|].
  rewrite to_nat_pos by lia. apply gpow_cong. unfold gzof, gcong. cbn [fst snd]. rewrite !ofZ_ok by apply B. split; apply cong_mod; lia.
Qed.

(** ** Certificates.  The width is checked with the rest. *)
Definition fits (k : nat) (n : Z) : bool := (0 <? n) && (n <? wB ^ Z.of_nat k).
Lemma fits_ok k n : fits k n = true -> 0 < n < wB ^ Z.of_nat k.
Proof. unfold fits. rewrite andb_true_iff, !Z.ltb_lt. tauto. Qed.
Definition fpock (k : nat) (n a m : Z) (t : ftree) : bool := fits k n && pock_with (fast_pow k n) n a m t.
Theorem fpock_ok k n a m t : fpock k n a m t = true -> Forall prime (map fst (flist t)) -> prime n.
Proof. unfold fpock. rewrite andb_true_iff. intros (F & H). apply (pock_with_ok (fast_pow k n) n a m t); [apply fast_powers, fits_ok, F|exact H]. Qed.
Definition fplus (k : nat) (dd n : Z) (a : gi) (q c : Z) : bool := fits k n && plus_with dd (fast_gpow k dd n) n a q c.
Theorem fplus_ok k dd n a q c : fplus k dd n a q c = true -> prime q -> prime n.
Proof. unfold fplus. rewrite andb_true_iff. intros (F & H). apply (plus_with_ok dd (fast_gpow k dd n) n a q c); [apply fast_gpowers, fits_ok, F|exact H]. Qed.
Definition fplus2 (k : nat) (dd n : Z) (a a' : gi) (q q' c c' t : Z) : bool := fits k n && plus2_with dd (fast_gpow k dd n) n a a' q q' c c' t.
Theorem fplus2_ok k dd n a a' q q' c c' t : fplus2 k dd n a a' q q' c c' t = true -> prime q -> prime q' -> prime n.
Proof. unfold fplus2. rewrite andb_true_iff. intros (F & H). apply (plus2_with_ok dd (fast_gpow k dd n) n a a' q q' c c' t); [apply fast_gpowers, fits_ok, F|exact H]. Qed.
