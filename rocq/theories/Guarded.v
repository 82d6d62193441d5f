(** When the shipped curves do add and double correctly (C38): if the products
    that get subtracted have no pending carry. *)
From Coq Require Import ZArith Znumtheory List String Lia Bool.
From Verif Require Import Lang Quick Poly Kernel Fields Kfacts Ops Words Codec Normalize Methods Surface Forms Arith Observe NumTheory Safe History Primes Roots Zp
  Refute EdwardsSpec EdwardsAlg Edwards CurveSpec Curves CurveRefute Exact Modes SmallMul Doubling.
From Verif Require Src_edwards Src_curves.
Import ListNotations.
Local Open Scope string_scope.
Local Open Scope Z_scope.
Local Open Scope list_scope.

(** ** The two bodies, run over given results of the field calls *)
Section Runs.
Context {I : Type}.
Variable K : I -> string -> list val -> res (list val * list val).
Variable md : I -> mode.
Definition bin f a b r : Prop := forall i, K i f [a; b] = Ok ([r], [a; b]).
Definition una f a r : Prop := forall i, K i f [a] = Ok ([r], [a]).
Definition con f r : Prop := forall i, K i f [] = Ok ([r], []).
Ltac go := intros i; unfold run_func, Src_edwards.f_P_add_assign_ref, Src_edwards.f_P_double;
  cbn [f_params f_body f_rets List.length Nat.eqb combine];
  repeat (cbn [exec_list exec eval_args eval bind get gets lookup upd String.eqb Ascii.eqb Bool.eqb fst snd write_back bind_rets evals];
    match goal with H : bin _ _ _ _ |- context [K i _ _] => rewrite (H i) | H : una _ _ _ |- context [K i _ _] => rewrite (H i) | H : con _ _ |- context [K i _ _] => rewrite (H i) end);
  cbn [exec_list exec eval_args eval bind get gets lookup upd String.eqb Ascii.eqb Bool.eqb fst snd write_back bind_rets evals]; reflexivity.
Lemma add_run X1 Y1 Z1 T1 X2 Y2 Z2 T2 a b dv td c zz s1 s2 m u e f g h x y z t :
  bin "F::mul(F)" X1 X2 a -> bin "F::mul(F)" Y1 Y2 b -> con "C::d_val" dv -> bin "F::mul(F)" T1 dv td -> bin "F::mul(F)" td T2 c ->
  bin "F::mul(F)" Z1 Z2 zz -> bin "F::add(F)" X1 Y1 s1 -> bin "F::add(F)" X2 Y2 s2 -> bin "F::mul(F)" s1 s2 m ->
  bin "F::sub(F)" m a u -> bin "F::sub(F)" u b e -> bin "F::sub(F)" zz c f -> bin "F::add(F)" zz c g -> bin "F::sub(F)" b a h ->
  bin "F::mul(F)" e f x -> bin "F::mul(F)" g h y -> bin "F::mul(F)" f g z -> bin "F::mul(F)" e h t ->
  forall i, run_func (md i) (K i) Src_edwards.f_P_add_assign_ref [X1; Y1; Z1; T1; X2; Y2; Z2; T2] = Ok ([], [x; y; z; t; X2; Y2; Z2; T2]).
Proof. intros. revert i. go. Qed.
Lemma double_run X1 Y1 Z1 T1 a b zz c s m u e f g h x y z t :
  una "F::squared" X1 a -> una "F::squared" Y1 b -> una "F::squared" Z1 zz -> bin "F::small_mul" zz (VInt 2) c ->
  bin "F::add(F)" X1 Y1 s -> una "F::squared" s m -> bin "F::sub(F)" m a u -> bin "F::sub(F)" u b e -> bin "F::add(F)" a b g ->
  bin "F::sub(F)" g c f -> bin "F::sub(F)" a b h ->
  bin "F::mul(F)" e f x -> bin "F::mul(F)" g h y -> bin "F::mul(F)" f g z -> bin "F::mul(F)" e h t ->
  forall i, run_func (md i) (K i) Src_edwards.f_P_double [X1; Y1; Z1; T1] = Ok ([], [x; y; z; t]).
Proof. intros. revert i. go. Qed.
End Runs.

(** ** Over a shipped field *)
Section Shipped.
Variable C : crv.
Hypothesis HC : In C all_curves.
Let F := cv_fld C.
Let HF : In F all_fields := curve_field C HC.
Let K := from no_base (cv_tbl C) 8.
Let p := cv_p C.
Let bn f x y o := bin K f (VArr x) (VArr y) (VArr o).
Let un f x o := una K f (VArr x) (VArr o).

Lemma prime_p : prime p. Proof. exact (prime_modulus F HF). Qed.
Lemma em a b : eqmod F a b -> cong p a b.
Proof. apply eqmod_cong. exact HF. Qed.
Ltac hs := apply (has_all C HC); vm_compute; reflexivity.

(* a call of [computes] is the one the curve code makes *)
Lemma runs_same f args o o' d : (d <= 16)%nat -> runsd d F f args [] (VArr o :: tl args) -> runs F f args [] (VArr o' :: tl args) -> o = o'.
Proof. intros L R R'. specialize (R Debug 16%nat L). specialize (R' Debug). unfold rust_call in R'. rewrite R in R'. now injection R' as ->. Qed.

Lemma mul_of x y : mul_safe F x y -> exists o, bn "F::mul(F)" x y o /\ computes F "mul" x y o /\ rep F (-1) (mx F) o /\
  cong p (value F o) (value F x * value F y) /\ (loose F x -> loose F y -> loose F o).
Proof.
  intros S. destruct (mul_ok F x y HF S) as (o & R & Ro & V & L). exists o. split; [intros i; apply (up C HC 3); [lia|hs|now apply mul_val]|].
  split; [apply (computes_intro F 1); [auto|cbn; tauto|lia|exact R]|]. split; [exact Ro|]. split; [now apply em|exact L].
Qed.
Lemma mul_is x y o : mul_safe F x y -> computes F "mul" x y o -> bn "F::mul(F)" x y o /\ rep F (-1) (mx F) o /\
  cong p (value F o) (value F x * value F y) /\ (loose F x -> loose F y -> loose F o).
Proof.
  intros S (R' & _). destruct (mul_of x y S) as (o' & B & (R & _) & T). replace o with o'; [auto|].
  specialize (R Debug). specialize (R' Debug). rewrite R in R'. now injection R' as ->.
Qed.
Lemma add_of x y : any_rep F x -> any_rep F y -> exists o, bn "F::add(F)" x y o /\ computes F "add" x y o /\ rep F (-1) (2 * 2 ^ fl_tb F) o /\
  cong p (value F o) (value F x + value F y) /\ (tight F x -> tight F y -> summand F o).
Proof.
  intros X Y. destruct (add_ok F x y HF X Y) as (o & R & Ro & V & _ & T). exists o. split; [intros i; apply (up C HC 3); [lia|hs|now apply add_val]|].
  split; [apply (computes_intro F 1); [auto|cbn; tauto|lia|exact R]|]. split; [exact Ro|]. split; [|exact T].
  rewrite V. apply cong_add; apply em, folded_eqmod.
Qed.
Lemma add_is x y o : any_rep F x -> any_rep F y -> computes F "add" x y o -> bn "F::add(F)" x y o /\ rep F (-1) (2 * 2 ^ fl_tb F) o /\
  cong p (value F o) (value F x + value F y) /\ (tight F x -> tight F y -> summand F o).
Proof.
  intros X Y (R' & _). destruct (add_of x y X Y) as (o' & B & (R & _) & T). replace o with o'; [auto|].
  specialize (R Debug). specialize (R' Debug). rewrite R in R'. now injection R' as ->.
Qed.
Lemma sub_of x y : any_rep F x -> any_rep F y -> carry F y = 0 -> exists o, bn "F::sub(F)" x y o /\ computes F "sub" x y o /\ rep F (- 2 ^ fl_tb F - 1) (2 ^ fl_tb F) o /\
  cong p (value F o) (value F x - value F y).
Proof.
  intros X Y Z. destruct (sub_ok F x y HF X Y) as (o & R & Ro & V). exists o. split; [intros i; apply (up C HC 3); [lia|hs|now apply sub_val]|].
  split; [apply (computes_intro F 1); [auto|cbn; tauto|lia|exact R]|]. split; [exact Ro|].
  rewrite V, Z, Z.mul_0_r, Z.add_0_r. apply cong_sub; apply em, folded_eqmod.
Qed.
Lemma sub_is x y o : any_rep F x -> any_rep F y -> carry F y = 0 -> computes F "sub" x y o -> bn "F::sub(F)" x y o /\ rep F (- 2 ^ fl_tb F - 1) (2 ^ fl_tb F) o /\
  cong p (value F o) (value F x - value F y).
Proof.
  intros X Y Z (R' & _). destruct (sub_of x y X Y Z) as (o' & B & (R & _) & T). replace o with o'; [auto|].
  specialize (R Debug). specialize (R' Debug). rewrite R in R'. now injection R' as ->.
Qed.
Lemma sq_of x : produced F x -> exists o, un "F::squared" x o /\ computes_unary F "F::square" "F::squared" x o /\ produced F o /\
  rep F (-1) (mx F) o /\ cong p (value F o) (value F x * value F x).
Proof.
  intros X. destruct (square_produced F x HF X) as (o & Co & V & P). exists o.
  destruct (square_runs F x HF (produced_wide F x HF X)) as (o' & R & Ro).
  assert (o' = o) as ->. { destruct Co as (R' & _). specialize (R Debug 16%nat ltac:(lia)). specialize (R' Debug). unfold rust_call in R'. rewrite R in R'. now injection R' as ->. }
  split; [intros i; apply (up C HC 3); [lia|hs|now apply squared_val]|]. split; [exact Co|]. split; [exact P|]. split; [exact Ro|now apply em].
Qed.
Lemma sq_is x o : produced F x -> computes_unary F "F::square" "F::squared" x o -> un "F::squared" x o /\ produced F o /\
  rep F (-1) (mx F) o /\ cong p (value F o) (value F x * value F x).
Proof.
  intros X (R' & _). destruct (sq_of x X) as (o' & B & (R & _) & T). replace o with o'; [auto|].
  specialize (R Debug). specialize (R' Debug). rewrite R in R'. now injection R' as ->.
Qed.
Lemma small_is x o : tight F x -> computes_small F "mul" x 2 o -> bin K "F::small_mul" (VArr x) (VInt 2) (VArr o) /\ any_rep F o /\
  cong p (value F o) (value F x * 2).
Proof.
  intros X (R' & _). assert (S : 2 ^ fl_tb F * 2 ^ 1 <= 2 ^ 63).
  { apply (all_chk (fun F => 2 ^ fl_tb F * 2 ^ 1 <=? 2 ^ 63)) in HF as H2; [|vm_compute; reflexivity]. now apply Z.leb_le in H2. }
  destruct (power_multiple F x 1 HF X ltac:(lia) S) as (o' & (R & _) & V & Ro). change (2 ^ 1) with 2 in R, V.
  destruct (smul4_runs F x 2 HF (History.tight_produced F x HF X) ltac:(lia)) as (o1 & R1 & _).
  assert (o' = o) as -> by (specialize (R Debug); specialize (R' Debug); rewrite R in R'; now injection R' as ->).
  assert (o1 = o) as -> by (specialize (R1 Debug 16%nat ltac:(lia)); specialize (R' Debug); unfold rust_call in R'; cbn [append] in R'; rewrite R1 in R'; now injection R' as ->).
  split; [intros i; apply (up C HC 3); [lia|hs|now apply small_val]|]. split; [exact Ro|rewrite V; now apply cong_eq].
Qed.

Lemma prod_any x : rep F (-1) (mx F) x -> any_rep F x.
Proof. intros R. apply (produced_any F x HF). now apply fresh_produced'. Qed.
Lemma sum_any x : rep F (-1) (2 * 2 ^ fl_tb F) x -> any_rep F x.
Proof. intros R. apply (produced_any F x HF). now apply sum_produced. Qed.
Lemma diff_any x : rep F (- 2 ^ fl_tb F - 1) (2 ^ fl_tb F) x -> any_rep F x.
Proof. intros R. apply (produced_any F x HF). now apply diff_produced. Qed.
Lemma tight_of x lo hi : rep F lo hi x -> carry F x = 0 -> tight F x.
Proof.
  intros (L & W & T) Z. split; [exact L|split; [exact W|]]. unfold carry in Z. pose proof (B_pos F HF) as BP. unfold B in BP.
  apply Z.div_small_iff in Z; [|lia]. destruct Z as [Z|Z]; lia.
Qed.
Lemma d_runs : con K "C::d_val" (VArr (d_words C)).
Proof. intros (md, k). unfold K, from. cbn [Nat.add call]. rewrite (curve_table C HC). reflexivity. Qed.
Lemma d_is dv : point_runs C "C::d_val" [] [VArr dv] [] -> dv = d_words C.
Proof. intros R. specialize (R Debug). unfold rust_call in R. cbn [call] in R. rewrite (curve_table C HC) in R. now injection R as ->. Qed.
Lemma d_cong : cong p (value F (d_words C)) (cv_d C) /\ canonical F (d_words C).
Proof.
  destruct (d_right C HC) as (l & R & Ca & E & _). apply d_is in R. subst l. split; [|exact Ca]. now apply (eqc p prime_p).
Qed.
Lemma tight_produced x : tight F x -> produced F x.
Proof. intros T. pose proof (B_pos F HF) as BP. unfold B in BP. destruct (layout_facts F HF) as (_ & _ & _ & Cp & _). eapply rep_weaken; [exact T|lia|lia]. Qed.

(* replace every computed value by its definition *)
Ltac dens :=
  lazymatch goal with
  | |- cong _ ?a ?a => reflexivity
  | D : cong p (value F ?v) _ |- cong p (value F ?v) _ => etransitivity; [exact D|]; dens
  | |- cong _ (_ * _) (_ * _) => apply cong_mul; dens
  | |- cong _ (_ + _) (_ + _) => apply cong_add; dens
  | |- cong _ (_ - _) (_ - _) => apply cong_sub; dens
  end.
Lemma add_finish x1 y1 z1 t1 x2 y2 z2 t2 a b td c zz s1 s2 m u e f g h x y z t A B S :
  bn "F::mul(F)" x1 x2 a -> bn "F::mul(F)" y1 y2 b -> bn "F::mul(F)" t1 (d_words C) td -> bn "F::mul(F)" td t2 c ->
  bn "F::mul(F)" z1 z2 zz -> bn "F::add(F)" x1 y1 s1 -> bn "F::add(F)" x2 y2 s2 -> bn "F::mul(F)" s1 s2 m ->
  bn "F::sub(F)" m a u -> bn "F::sub(F)" u b e -> bn "F::sub(F)" zz c f -> bn "F::add(F)" zz c g -> bn "F::sub(F)" b a h ->
  bn "F::mul(F)" e f x -> bn "F::mul(F)" g h y -> bn "F::mul(F)" f g z -> bn "F::mul(F)" e h t ->
  let v := value F in
  cong p (v a) (v x1 * v x2) -> cong p (v b) (v y1 * v y2) -> cong p (v td) (v t1 * v (d_words C)) -> cong p (v c) (v td * v t2) ->
  cong p (v zz) (v z1 * v z2) -> cong p (v s1) (v x1 + v y1) -> cong p (v s2) (v x2 + v y2) -> cong p (v m) (v s1 * v s2) ->
  cong p (v u) (v m - v a) -> cong p (v e) (v u - v b) -> cong p (v f) (v zz - v c) -> cong p (v g) (v zz + v c) -> cong p (v h) (v b - v a) ->
  cong p (v x) (v e * v f) -> cong p (v y) (v g * v h) -> cong p (v z) (v f * v g) -> cong p (v t) (v e * v h) ->
  let P := Ext (VArr x1) (VArr y1) (VArr z1) (VArr t1) in let Q := Ext (VArr x2) (VArr y2) (VArr z2) (VArr t2) in
  let R := Ext (VArr x) (VArr y) (VArr z) (VArr t) in
  represents C P A -> represents C Q B -> edwards_sum p (cv_d C) A B S -> curve_sum C P Q R /\ represents C R S.
Proof.
  intros B1 B2 B3 B4 B5 B6 B7 B8 B9 B10 B11 B12 B13 B14 B15 B16 B17 v; subst v.
  intros D1 D2 D3 D4 D5 D6 D7 D8 D9 D10 D11 D12 D13 D14 D15 D16 D17 P Q R RP RQ SU. destruct d_cong as (DD & _). split.
  - assert (RUN : calls no_base (cv_tbl C) 9 "P::add_assign(&P)" (coords P ++ coords Q) ([], coords R ++ coords Q)).
    { apply (enter no_base (cv_tbl C) (fun f fn => curve_has_edwards C f fn HC) 8 _ Src_edwards.f_P_add_assign_ref); [reflexivity|].
      unfold P, Q, R, coords. cbn [eX eY eZ eT app].
      exact (add_run K fst _ _ _ _ _ _ _ _ _ _ _ _ _ _ _ _ _ _ _ _ _ _ _ _ _ _ B1 B2 d_runs B3 B4 B5 B6 B7 B8 B9 B10 B11 B12 B13 B14 B15 B16 B17). }
    destruct (add_val_call _ _ (fun f fn => curve_has_edwards C f fn HC) _ _ _ _ _ _ _ _ _ _ _ _ _ _ RUN eq_refl) as (C2 & C3 & C4).
    split; [|split; [|split]]; eapply deep16; first [exact RUN|exact C2|exact C3|exact C4|lia].
  - refine (add_formulas p prime_p (cv_d C) _ _ _ _ _ _ _ _ _ _ _ _ A B S RP RQ SU _). cbv zeta. unfold P, Q, R. cbn [eX eY eZ eT coordinate].
    fold F. split; [|split; [|split]]; dens.
Qed.
Lemma double_finish x1 y1 z1 t1 a b zz c s m u e f g h x y z t A S :
  un "F::squared" x1 a -> un "F::squared" y1 b -> un "F::squared" z1 zz -> bin K "F::small_mul" (VArr zz) (VInt 2) (VArr c) ->
  bn "F::add(F)" x1 y1 s -> un "F::squared" s m -> bn "F::sub(F)" m a u -> bn "F::sub(F)" u b e -> bn "F::add(F)" a b g ->
  bn "F::sub(F)" g c f -> bn "F::sub(F)" a b h ->
  bn "F::mul(F)" e f x -> bn "F::mul(F)" g h y -> bn "F::mul(F)" f g z -> bn "F::mul(F)" e h t ->
  let v := value F in
  cong p (v a) (v x1 * v x1) -> cong p (v b) (v y1 * v y1) -> cong p (v zz) (v z1 * v z1) -> cong p (v c) (v zz * 2) ->
  cong p (v s) (v x1 + v y1) -> cong p (v m) (v s * v s) ->
  cong p (v u) (v m - v a) -> cong p (v e) (v u - v b) -> cong p (v g) (v a + v b) -> cong p (v f) (v g - v c) -> cong p (v h) (v a - v b) ->
  cong p (v x) (v e * v f) -> cong p (v y) (v g * v h) -> cong p (v z) (v f * v g) -> cong p (v t) (v e * v h) ->
  let P := Ext (VArr x1) (VArr y1) (VArr z1) (VArr t1) in let R := Ext (VArr x) (VArr y) (VArr z) (VArr t) in
  represents C P A -> on_curve p (cv_d C) A -> edwards_sum p (cv_d C) A A S -> curve_double C P R /\ represents C R S.
Proof.
  intros B1 B2 B3 B4 B5 B6 B7 B8 B9 B10 B11 B12 B13 B14 B15 v; subst v.
  intros D1 D2 D3 D4 D5 D6 D7 D8 D9 D10 D11 D12 D13 D14 D15 P R (RP1 & RP2 & RP3 & _) OC SU. split.
  - assert (RUN : calls no_base (cv_tbl C) 9 "P::double" (coords P) ([], coords R)).
    { apply (enter no_base (cv_tbl C) (fun f fn => curve_has_edwards C f fn HC) 8 _ Src_edwards.f_P_double); [reflexivity|].
      unfold P, R, coords. cbn [eX eY eZ eT app].
      exact (double_run K fst _ _ _ (VArr t1) _ _ _ _ _ _ _ _ _ _ _ _ _ _ _ B1 B2 B3 B4 B5 B6 B7 B8 B9 B10 B11 B12 B13 B14 B15). }
    pose proof (doubled_call _ _ (fun f fn => curve_has_edwards C f fn HC) _ _ _ _ _ _ _ _ _ RUN) as C2.
    split; eapply deep16; first [exact RUN|exact C2|lia].
  - refine (double_formulas p prime_p (cv_d C) _ _ _ _ _ _ _ A S (conj RP1 (conj RP2 RP3)) OC SU _). cbv zeta. unfold P, R. cbn [eX eY eZ eT coordinate].
    fold F. split; [|split; [|split]]; dens.
Qed.

Lemma small_runs x o : produced F x -> computes_small F "mul" x 2 o -> bin K "F::small_mul" (VArr x) (VInt 2) (VArr o) /\ any_rep F o.
Proof.
  intros X (R' & _). destruct (smul4_runs F x 2 HF X ltac:(lia)) as (o' & R & Ro). assert (o' = o) as <-.
  { specialize (R Debug 16%nat ltac:(lia)). specialize (R' Debug). unfold rust_call in R'. cbn [append] in R'. rewrite R in R'. now injection R' as ->. }
  split; [intros i; apply (up C HC 3); [lia|hs|now apply small_val]|now apply wide_any].
Qed.
(* zz is the square of z and c its double, as the library computes them *)
Definition doubles_to (P : ext) (zz c : list Z) : Prop := exists z, eZ P = VArr z /\
  computes_unary F "F::square" "F::squared" z zz /\ computes_small F "mul" zz 2 c.
(** three curves: multiplication takes everything the library produces *)
Section Signed.
Hypothesis N1 : F <> e222_117.
Hypothesis N2 : F <> e251_9.
Lemma ms x y : produced F x -> produced F y -> mul_safe F x y.
Proof. intros X Y. apply safe_wide; auto; now apply produced_wide. Qed.
Lemma mul_p x y : produced F x -> produced F y -> exists o, bn "F::mul(F)" x y o /\ produced F o /\ cong p (value F o) (value F x * value F y).
Proof. intros X Y. destruct (mul_of x y (ms x y X Y)) as (o & B & _ & R & V & _). exists o. split; [exact B|]. split; [now apply fresh_produced'|exact V]. Qed.
Lemma mul_q x y o : produced F x -> produced F y -> computes F "mul" x y o -> bn "F::mul(F)" x y o /\ produced F o /\ cong p (value F o) (value F x * value F y).
Proof. intros X Y R. destruct (mul_is x y o (ms x y X Y) R) as (B & R' & V & _). split; [exact B|]. split; [now apply fresh_produced'|exact V]. Qed.
Lemma add_p x y : produced F x -> produced F y -> exists o, bn "F::add(F)" x y o /\ produced F o /\ cong p (value F o) (value F x + value F y).
Proof.
  intros X Y. destruct (add_of x y (produced_any F x HF X) (produced_any F y HF Y)) as (o & B & _ & R & V & _). exists o. split; [exact B|].
  split; [now apply sum_produced|exact V].
Qed.
Lemma sub_p x y : produced F x -> any_rep F y -> carry F y = 0 -> exists o, bn "F::sub(F)" x y o /\ produced F o /\ cong p (value F o) (value F x - value F y).
Proof.
  intros X Y Z. destruct (sub_of x y (produced_any F x HF X) Y Z) as (o & B & _ & R & V). exists o. split; [exact B|].
  split; [now apply diff_produced|exact V].
Qed.
Lemma add_signed P Q A B S : produced_point C P -> produced_point C Q -> represents C P A -> represents C Q B ->
  edwards_sum p (cv_d C) A B S -> clean_sum C P Q -> exists R, curve_sum C P Q R /\ represents C R S /\ produced_point C R.
Proof.
  intros PP PQ RP RQ SU (x1 & y1 & z1 & t1 & x2 & y2 & z2 & t2 & dv & td & a & b & c & -> & -> & RD & Ra & Rb & Rt & Rc & Za & Zb & Zc).
  destruct PP as (? & ? & ? & ? & E & PX1 & PY1 & PZ1 & PT1). injection E as <- <- <- <-.
  destruct PQ as (? & ? & ? & ? & E & PX2 & PY2 & PZ2 & PT2). injection E as <- <- <- <-. apply d_is in RD. subst dv.
  assert (PD : produced F (d_words C)) by now apply d_produced.
  destruct (mul_q _ _ _ PX1 PX2 Ra) as (Ba & Pa & Va). destruct (mul_q _ _ _ PY1 PY2 Rb) as (Bb & Pb & Vb).
  destruct (mul_q _ _ _ PT1 PD Rt) as (Bt & Pt & Vt). destruct (mul_q _ _ _ Pt PT2 Rc) as (Bc & Pc & Vc).
  destruct (mul_p _ _ PZ1 PZ2) as (zz & Bzz & Pzz & Vzz).
  destruct (add_p _ _ PX1 PY1) as (s1 & Bs1 & Ps1 & Vs1). destruct (add_p _ _ PX2 PY2) as (s2 & Bs2 & Ps2 & Vs2).
  destruct (mul_p _ _ Ps1 Ps2) as (m & Bm & Pm & Vm).
  destruct (sub_p m a Pm (produced_any F a HF Pa) Za) as (u & Bu & Pu & Vu). destruct (sub_p u b Pu (produced_any F b HF Pb) Zb) as (e & Be & Pe & Ve).
  destruct (sub_p zz c Pzz (produced_any F c HF Pc) Zc) as (f & Bf & Pf & Vf). destruct (add_p zz c Pzz Pc) as (g & Bg & Pg & Vg).
  destruct (sub_p b a Pb (produced_any F a HF Pa) Za) as (h & Bh & Ph & Vh).
  destruct (mul_p e f Pe Pf) as (x & Bx & Px & Vx). destruct (mul_p g h Pg Ph) as (y & By & Py & Vy).
  destruct (mul_p f g Pf Pg) as (z & Bz & Pz & Vz). destruct (mul_p e h Pe Ph) as (t & Bt3 & Pt3 & Vt3).
  exists (Ext (VArr x) (VArr y) (VArr z) (VArr t)).
  destruct (add_finish x1 y1 z1 t1 x2 y2 z2 t2 a b td c zz s1 s2 m u e f g h x y z t A B S) as (K1 & K2); auto.
  split; [exact K1|split; [exact K2|]]. exists x, y, z, t. auto.
Qed.
Lemma double_signed P A S : (forall zz c, produced F zz -> carry F zz = 0 -> doubles_to P zz c -> cong p (value F c) (value F zz * 2)) -> produced_point C P -> represents C P A -> on_curve p (cv_d C) A ->
  edwards_sum p (cv_d C) A A S -> clean_double C P -> exists R, curve_double C P R /\ represents C R S /\ produced_point C R.
Proof.
  intros N3 PP RP OC SU (x1 & y1 & z1 & t1 & a & b & zz & c & -> & Ra & Rb & Rzz & Rc & Za & Zb & Zzz & Zc).
  destruct PP as (? & ? & ? & ? & E & PX1 & PY1 & PZ1 & PT1). injection E as <- <- <- <-.
  destruct (sq_is _ _ PX1 Ra) as (Ba & Pa & _ & Va). destruct (sq_is _ _ PY1 Rb) as (Bb & Pb & _ & Vb).
  destruct (sq_is _ _ PZ1 Rzz) as (Bzz & Pzz & Qzz & Vzz). destruct (small_runs zz c Pzz Rc) as (Bc & Ac).
  assert (Vc : cong p (value F c) (value F zz * 2)) by (apply N3; auto; exists z1; auto).
  destruct (add_p _ _ PX1 PY1) as (s & Bs & Ps & Vs). destruct (sq_of s Ps) as (m & Bm & _ & Pm & _ & Vm).
  destruct (sub_p m a Pm (produced_any F a HF Pa) Za) as (u & Bu & Pu & Vu). destruct (sub_p u b Pu (produced_any F b HF Pb) Zb) as (e & Be & Pe & Ve).
  destruct (add_p a b Pa Pb) as (g & Bg & Pg & Vg). destruct (sub_p g c Pg Ac Zc) as (f & Bf & Pf & Vf).
  destruct (sub_p a b Pa (produced_any F b HF Pb) Zb) as (h & Bh & Ph & Vh).
  destruct (mul_p e f Pe Pf) as (x & Bx & Px & Vx). destruct (mul_p g h Pg Ph) as (y & By & Py & Vy).
  destruct (mul_p f g Pf Pg) as (z & Bz & Pz & Vz). destruct (mul_p e h Pe Ph) as (t & Bt3 & Pt3 & Vt3).
  exists (Ext (VArr x) (VArr y) (VArr z) (VArr t)).
  destruct (double_finish x1 y1 z1 t1 a b zz c s m u e f g h x y z t A S) as (K1 & K2); auto.
  split; [exact K1|split; [exact K2|]]. exists x, y, z, t. auto.
Qed.
End Signed.

(** the other two: the factors must not be negative *)
Lemma near_of x : rep F (- 2 ^ fl_tb F - 1) (2 ^ fl_tb F) x -> 0 <= top F x -> near F x.
Proof. intros (L & W & T) Z. split; [exact L|split; [exact W|lia]]. Qed.
Lemma loose_of x : rep F (-1) (2 * 2 ^ fl_tb F) x -> 0 <= top F x -> loose F x.
Proof. intros (L & W & T) Z. destruct (layout_facts F HF) as (_ & _ & _ & Cp & _). split; [exact L|split; [exact W|lia]]. Qed.
Lemma near_loose x : near F x -> loose F x.
Proof. intros (L & W & T). pose proof (B_pos F HF) as BP. unfold B in BP. destruct (layout_facts F HF) as (_ & _ & _ & Cp & _). split; [exact L|split; [exact W|lia]]. Qed.
Lemma tight_near x : tight F x -> near F x.
Proof. intros (L & W & T). split; [exact L|split; [exact W|lia]]. Qed.
Lemma ms_tight x y : tight F x -> tight F y -> mul_safe F x y.
Proof. intros X Y. apply safe_left; [apply near_loose|]; now apply tight_near. Qed.
Lemma ms_near x y : near F x -> near F y -> mul_safe F x y.
Proof. intros X Y. apply safe_left; [apply near_loose|]; assumption. Qed.
Lemma loose_tight x : tight F x -> loose F x. Proof. intros T. apply near_loose. now apply tight_near. Qed.
Lemma canonical_produced P : canonical_point C P -> produced_point C P.
Proof.
  intros (x & y & z & t & -> & X & Y & Z & T). exists x, y, z, t. split; [reflexivity|].
  split; [|split; [|split]]; apply tight_produced; [apply X|apply Y|apply Z|apply T].
Qed.
Lemma four_products e f g h : near F e -> near F f -> loose F g -> near F h ->
  exists x y z t, (bn "F::mul(F)" e f x /\ bn "F::mul(F)" g h y /\ bn "F::mul(F)" f g z /\ bn "F::mul(F)" e h t) /\
    (cong p (value F x) (value F e * value F f) /\ cong p (value F y) (value F g * value F h) /\ cong p (value F z) (value F f * value F g) /\
     cong p (value F t) (value F e * value F h)) /\ produced_point C (Ext (VArr x) (VArr y) (VArr z) (VArr t)).
Proof.
  intros E Ff G H. destruct (mul_of e f (ms_near _ _ E Ff)) as (x & Bx & _ & Px & Vx & _). destruct (mul_of g h (safe_left _ _ _ G H)) as (y & By & _ & Py & Vy & _).
  destruct (mul_of f g (safe_right _ _ _ Ff G)) as (z & Bz & _ & Pz & Vz & _). destruct (mul_of e h (ms_near _ _ E H)) as (t & Bt & _ & Pt & Vt & _).
  exists x, y, z, t. repeat (split; auto). exists x, y, z, t. repeat (split; [first [reflexivity|now apply fresh_produced']|]). now apply fresh_produced'.
Qed.
Lemma add_positive P Q A B S : canonical_point C P -> canonical_point C Q -> represents C P A -> represents C Q B ->
  edwards_sum p (cv_d C) A B S -> clean_sum C P Q -> positive_sum C P Q -> exists R, curve_sum C P Q R /\ represents C R S /\ produced_point C R.
Proof.
  intros PP PQ RP RQ SU (x1 & y1 & z1 & t1 & x2 & y2 & z2 & t2 & dv & td & a & b & c & -> & -> & RD & Ra & Rb & Rt & Rc & Za & Zb & Zc).
  intros (? & ? & ? & ? & ? & ? & ? & ? & dv' & td' & a' & b' & c' & zz & s1 & s2 & m & u & e & f & g & h & E1 & E2 & RD' & Ra' & Rb' & Rt' & Rc' &
    Rzz & Rs1 & Rs2 & Rm & Ru & Re & Rf & Rg & Rh & Te & Tf & Tg & Th).
  injection E1 as <- <- <- <-. injection E2 as <- <- <- <-.
  destruct PP as (? & ? & ? & ? & E & (PX1 & _) & (PY1 & _) & (PZ1 & _) & (PT1 & _)). injection E as <- <- <- <-.
  destruct PQ as (? & ? & ? & ? & E & (PX2 & _) & (PY2 & _) & (PZ2 & _) & (PT2 & _)). injection E as <- <- <- <-. apply d_is in RD, RD'. subst dv dv'.
  destruct d_cong as (_ & (PD & _)).
  assert (UQ : forall x y o o', computes F "mul" x y o -> computes F "mul" x y o' -> o = o').
  { intros x y o o' (R & _) (R' & _). specialize (R Debug). specialize (R' Debug). rewrite R in R'. now injection R' as ->. }
  assert (a' = a) as -> by eauto. assert (b' = b) as -> by eauto. assert (td' = td) as -> by eauto. assert (c' = c) as -> by eauto. clear Ra' Rb' Rt' Rc'.
  destruct (mul_is _ _ _ (ms_tight _ _ PX1 PX2) Ra) as (Ba & Pa & Va & _). destruct (mul_is _ _ _ (ms_tight _ _ PY1 PY2) Rb) as (Bb & Pb & Vb & _).
  destruct (mul_is _ _ _ (ms_tight _ _ PT1 PD) Rt) as (Bt & Pt & Vt & Lt). specialize (Lt (loose_tight _ PT1) (loose_tight _ PD)).
  destruct (mul_is _ _ _ (safe_left _ _ _ Lt (tight_near _ PT2)) Rc) as (Bc & Pc & Vc & _).
  destruct (mul_is _ _ _ (ms_tight _ _ PZ1 PZ2) Rzz) as (Bzz & Pzz & Vzz & _).
  destruct (add_is _ _ _ (tight_any F _ HF PX1) (tight_any F _ HF PY1) Rs1) as (Bs1 & _ & Vs1 & Ps1).
  destruct (add_is _ _ _ (tight_any F _ HF PX2) (tight_any F _ HF PY2) Rs2) as (Bs2 & _ & Vs2 & Ps2).
  destruct (mul_is _ _ _ (safe_sums _ _ _ (Ps1 PX1 PY1) (Ps2 PX2 PY2)) Rm) as (Bm & Pm & Vm & _).
  apply prod_any in Pa as Aa, Pb as Ab, Pc as Ac, Pzz as Azz, Pm as Am.
  destruct (sub_is m a u Am Aa Za Ru) as (Bu & Pu & Vu). apply diff_any in Pu as Au. destruct (sub_is u b e Au Ab Zb Re) as (Be & Pe & Ve).
  destruct (sub_is zz c f Azz Ac Zc Rf) as (Bf & Pf & Vf). destruct (add_is zz c g Azz Ac Rg) as (Bg & Pg & Vg & _).
  destruct (sub_is b a h Ab Aa Za Rh) as (Bh & Ph & Vh).
  destruct (four_products e f g h (near_of _ Pe Te) (near_of _ Pf Tf) (loose_of _ Pg Tg) (near_of _ Ph Th)) as (x & y & z & t & (Bx & By & Bz & Bt3) & (Vx & Vy & Vz & Vt3) & PR).
  exists (Ext (VArr x) (VArr y) (VArr z) (VArr t)).
  destruct (add_finish x1 y1 z1 t1 x2 y2 z2 t2 a b td c zz s1 s2 m u e f g h x y z t A B S) as (K1 & K2); auto.
Qed.
Lemma double_positive P A S : produced_point C P -> represents C P A -> on_curve p (cv_d C) A ->
  edwards_sum p (cv_d C) A A S -> clean_double C P -> positive_double C P -> exists R, curve_double C P R /\ represents C R S /\ produced_point C R.
Proof.
  intros PP RP OC SU (x1 & y1 & z1 & t1 & a & b & zz & c & -> & Ra & Rb & Rzz & Rc & Za & Zb & Zzz & Zc).
  intros (? & ? & ? & ? & a' & b' & zz' & c' & s & m & u & e & f & g & h & E1 & Ra' & Rb' & Rzz' & Rc' & Rs & Rm & Ru & Re & Rg & Rf & Rh & Te & Tf & Tg & Th).
  injection E1 as <- <- <- <-. destruct PP as (? & ? & ? & ? & E & PX1 & PY1 & PZ1 & PT1). injection E as <- <- <- <-.
  assert (UQ : forall x o o', computes_unary F "F::square" "F::squared" x o -> computes_unary F "F::square" "F::squared" x o' -> o = o').
  { intros x o o' (R & _) (R' & _). specialize (R Debug). specialize (R' Debug). rewrite R in R'. now injection R' as ->. }
  assert (a' = a) as -> by eauto. assert (b' = b) as -> by eauto. assert (zz' = zz) as -> by eauto. clear Ra' Rb' Rzz'.
  assert (c' = c) as ->. { destruct Rc as (R & _), Rc' as (R' & _). specialize (R Debug). specialize (R' Debug). rewrite R in R'. now injection R' as ->. }
  destruct (sq_is _ _ PX1 Ra) as (Ba & Pa & _ & Va). destruct (sq_is _ _ PY1 Rb) as (Bb & Pb & _ & Vb).
  destruct (sq_is _ _ PZ1 Rzz) as (Bzz & Pzz & Qzz & Vzz). destruct (small_is zz c (tight_of _ _ _ Qzz Zzz) Rc) as (Bc & Ac & Vc).
  apply (produced_any F _ HF) in PX1 as AX, PY1 as AY, Pa as Aa, Pb as Ab.
  destruct (add_is _ _ _ AX AY Rs) as (Bs & Ps & Vs & _). apply (sum_produced F _ HF) in Ps. destruct (sq_is s m Ps Rm) as (Bm & Pm & _ & Vm).
  apply (produced_any F _ HF) in Pm. destruct (sub_is m a u Pm Aa Za Ru) as (Bu & Pu & Vu). apply diff_any in Pu as Au. destruct (sub_is u b e Au Ab Zb Re) as (Be & Pe & Ve).
  destruct (add_is a b g Aa Ab Rg) as (Bg & Pg & Vg & _). destruct (sub_is g c f (sum_any _ Pg) Ac Zc Rf) as (Bf & Pf & Vf).
  destruct (sub_is a b h Aa Ab Zb Rh) as (Bh & Ph & Vh).
  destruct (four_products e f g h (near_of _ Pe Te) (near_of _ Pf Tf) (loose_of _ Pg Tg) (near_of _ Ph Th)) as (x & y & z & t & (Bx & By & Bz & Bt3) & (Vx & Vy & Vz & Vt3) & PR).
  exists (Ext (VArr x) (VArr y) (VArr z) (VArr t)).
  destruct (double_finish x1 y1 z1 t1 a b zz c s m u e f g h x y z t A S) as (K1 & K2); auto.
Qed.
End Shipped.

(** ** The claims *)
Lemma is_not {A} (f : fld -> A) F G : f F <> f G -> F <> G. Proof. congruence. Qed.
Ltac nf := apply (is_not fl_C); discriminate.
Lemma add_guarded C : In C [E_382; Curve41417; E_521] -> forall P Q A B S, produced_point C P -> produced_point C Q ->
  represents C P A -> represents C Q B -> edwards_sum (cv_p C) (cv_d C) A B S -> clean_sum C P Q ->
  exists R, curve_sum C P Q R /\ represents C R S /\ produced_point C R.
Proof.
  intros H. assert (HC : In C all_curves) by (cbn in *; tauto). apply (add_signed C HC); destruct H as [<-|[<-|[<-|[]]]]; nf.
Qed.
Lemma double_guarded C : In C [E_382; Curve41417; E_521] -> forall P A S, produced_point C P ->
  represents C P A -> on_curve (cv_p C) (cv_d C) A -> edwards_sum (cv_p C) (cv_d C) A A S -> clean_double C P ->
  exists R, curve_double C P R /\ represents C R S /\ produced_point C R.
Proof.
  intros H P A S. assert (HC : In C all_curves) by (cbn in *; tauto).
  apply (double_signed C HC); [destruct H as [<-|[<-|[<-|[]]]]; nf..|]. intros zz c PZ Z (z & _ & _ & R).
  apply (small_is C HC); [|exact R]. exact (tight_of C HC _ _ _ PZ Z).
Qed.
Lemma add_guarded_two C : In C [E_222; Curve1174] -> forall P Q A B S, canonical_point C P -> canonical_point C Q ->
  represents C P A -> represents C Q B -> edwards_sum (cv_p C) (cv_d C) A B S -> clean_sum C P Q -> positive_sum C P Q ->
  exists R, curve_sum C P Q R /\ represents C R S /\ produced_point C R.
Proof. intros H. assert (HC : In C all_curves) by (cbn in *; tauto). exact (add_positive C HC). Qed.
Lemma double_guarded_two C : In C [E_222; Curve1174] -> forall P A S, produced_point C P ->
  represents C P A -> on_curve (cv_p C) (cv_d C) A -> edwards_sum (cv_p C) (cv_d C) A A S -> clean_double C P -> positive_double C P ->
  exists R, curve_double C P R /\ represents C R S /\ produced_point C R.
Proof.
  intros H P A S. assert (HC : In C all_curves) by (cbn in *; tauto). exact (double_positive C HC P A S).
Qed.

(** ** Points that meet the conditions *)
Definition out (r : res (list val * list val)) : list Z := match r with Ok (_, VArr o :: _) => o | _ => [] end.
Definition lib2 (F : fld) f a b := out (quick_call Debug (fl_tbl F) f [VArr a; VArr b]).
Definition lib1 (F : fld) f a := out (quick_call Debug (fl_tbl F) f [VArr a]).
Definition mulw F := lib2 F "F::mul_assign(&F)".
Definition addw F := lib2 F "F::add_assign(&F)".
Definition subw F := lib2 F "F::sub_assign(&F)".
Definition sqw F := lib1 F "F::square".
Definition dblw F a := out (quick_call Debug (fl_tbl F) "F::small_mul_assign" [VArr a; VInt 2]).
Lemma mulw_ok F x y : In F all_fields -> wide F x -> wide F y -> computes F "mul" x y (mulw F x y) /\ produced F (mulw F x y).
Proof.
  intros H X Y. destruct (mul_runs F x y H X Y) as (o & R & Ro). assert (mulw F x y = o) as ->. { unfold mulw, lib2. rewrite quick_call_ok. unfold rust_call. now rewrite (R Debug 16%nat ltac:(lia)). }
  split; [apply (computes_intro F 1); [auto|cbn; tauto|lia|exact R]|now apply fresh_produced'].
Qed.
Lemma addw_ok F x y : In F all_fields -> any_rep F x -> any_rep F y -> computes F "add" x y (addw F x y) /\ produced F (addw F x y).
Proof.
  intros H X Y. destruct (add_ok F x y H X Y) as (o & R & Ro & _). assert (addw F x y = o) as ->. { unfold addw, lib2. rewrite quick_call_ok. unfold rust_call. now rewrite (R Debug 16%nat ltac:(lia)). }
  split; [apply (computes_intro F 1); [auto|cbn; tauto|lia|exact R]|now apply sum_produced].
Qed.
Lemma subw_ok F x y : In F all_fields -> any_rep F x -> any_rep F y -> computes F "sub" x y (subw F x y) /\ produced F (subw F x y).
Proof.
  intros H X Y. destruct (sub_ok F x y H X Y) as (o & R & Ro & _). assert (subw F x y = o) as ->. { unfold subw, lib2. rewrite quick_call_ok. unfold rust_call. now rewrite (R Debug 16%nat ltac:(lia)). }
  split; [apply (computes_intro F 1); [auto|cbn; tauto|lia|exact R]|now apply diff_produced].
Qed.
Lemma sqw_ok F x : In F all_fields -> produced F x -> computes_unary F "F::square" "F::squared" x (sqw F x) /\ produced F (sqw F x).
Proof.
  intros H X. destruct (square_produced F x H X) as (o & R & _ & Ro). assert (sqw F x = o) as ->. { unfold sqw, lib1. rewrite quick_call_ok. now rewrite (proj1 R Debug). }
  split; auto.
Qed.
Lemma dblw_ok F x : In F all_fields -> produced F x -> computes_small F "mul" x 2 (dblw F x) /\ wide F (dblw F x).
Proof.
  intros H X. destruct (smul4_runs F x 2 H X ltac:(lia)) as (o & R & Ro). assert (dblw F x = o) as ->. { unfold dblw. rewrite quick_call_ok. unfold rust_call. now rewrite (R Debug 16%nat ltac:(lia)). }
  split; [|exact Ro]. apply (computes_small_intro F 1); [auto|cbn; tauto|lia|exact R].
Qed.
Definition clean_sumb (C : crv) (x1 y1 t1 x2 y2 t2 : list Z) : bool :=
  let F := cv_fld C in let z v := carry F v =? 0 in
  z (mulw F x1 x2) && z (mulw F y1 y2) && z (mulw F (mulw F t1 (d_words C)) t2).
Definition clean_doubleb (C : crv) (x y z : list Z) : bool :=
  let F := cv_fld C in let k v := carry F v =? 0 in k (sqw F x) && k (sqw F y) && k (sqw F z) && k (dblw F (sqw F z)).
Definition positive_sumb (C : crv) (x1 y1 z1 t1 x2 y2 z2 t2 : list Z) : bool :=
  let F := cv_fld C in let k v := 0 <=? top F v in
  let a := mulw F x1 x2 in let b := mulw F y1 y2 in let c := mulw F (mulw F t1 (d_words C)) t2 in let zz := mulw F z1 z2 in
  k (subw F (subw F (mulw F (addw F x1 y1) (addw F x2 y2)) a) b) && k (subw F zz c) && k (addw F zz c) && k (subw F b a).
Definition positive_doubleb (C : crv) (x y z : list Z) : bool :=
  let F := cv_fld C in let k v := 0 <=? top F v in
  let a := sqw F x in let b := sqw F y in let c := dblw F (sqw F z) in
  k (subw F (subw F (sqw F (addw F x y)) a) b) && k (subw F (addw F a b) c) && k (addw F a b) && k (subw F a b).
Section Cases.
Variable C : crv.
Hypothesis HC : In C all_curves.
Let F := cv_fld C.
Let HF : In F all_fields := curve_field C HC.
Let pw x : produced F x -> wide F x := produced_wide F x HF.
Let pa x : produced F x -> any_rep F x := produced_any F x HF.
Let wa x : wide F x -> any_rep F x := wide_any F x HF.
Lemma d_point : point_runs C "C::d_val" [] [VArr (d_words C)] [].
Proof. intros md. unfold rust_call. cbn [call]. rewrite (curve_table C HC). reflexivity. Qed.
Lemma clean_sumb_yes P Q x1 y1 z1 t1 x2 y2 z2 t2 : P = Ext (VArr x1) (VArr y1) (VArr z1) (VArr t1) -> Q = Ext (VArr x2) (VArr y2) (VArr z2) (VArr t2) ->
  produced_point C P -> produced_point C Q -> clean_sumb C x1 y1 t1 x2 y2 t2 = true -> clean_sum C P Q.
Proof.
  intros -> -> (? & ? & ? & ? & E & X1 & Y1 & Z1 & T1) (? & ? & ? & ? & E' & X2 & Y2 & Z2 & T2) K. injection E as <- <- <- <-. injection E' as <- <- <- <-.
  unfold clean_sumb in K. rewrite !andb_true_iff, !Z.eqb_eq in K. destruct K as ((K1 & K2) & K3).
  destruct (mulw_ok F t1 (d_words C) HF (pw _ T1) (pw _ (d_produced C HC))) as (R & PT).
  exists x1, y1, z1, t1, x2, y2, z2, t2, (d_words C), (mulw F t1 (d_words C)), (mulw F x1 x2), (mulw F y1 y2), (mulw F (mulw F t1 (d_words C)) t2).
  split; [reflexivity|]. split; [reflexivity|]. split; [exact d_point|].
  split; [apply mulw_ok; auto; now apply pw|]. split; [apply mulw_ok; auto; now apply pw|]. split; [exact R|]. split; [apply mulw_ok; auto; now apply pw|]. auto.
Qed.
Lemma clean_doubleb_yes P x y z t : P = Ext (VArr x) (VArr y) (VArr z) (VArr t) ->
  produced_point C P -> clean_doubleb C x y z = true -> clean_double C P.
Proof.
  intros -> (? & ? & ? & ? & E & X1 & Y1 & Z1 & T1) K. injection E as <- <- <- <-.
  unfold clean_doubleb in K. rewrite !andb_true_iff, !Z.eqb_eq in K. destruct K as (((K1 & K2) & K3) & K4).
  destruct (sqw_ok F z HF Z1) as (R & PZ).
  exists x, y, z, t, (sqw F x), (sqw F y), (sqw F z), (dblw F (sqw F z)). split; [reflexivity|].
  split; [now apply sqw_ok|]. split; [now apply sqw_ok|]. split; [exact R|]. split; [now apply dblw_ok|]. auto.
Qed.
Lemma positive_sumb_yes P Q x1 y1 z1 t1 x2 y2 z2 t2 : P = Ext (VArr x1) (VArr y1) (VArr z1) (VArr t1) -> Q = Ext (VArr x2) (VArr y2) (VArr z2) (VArr t2) ->
  produced_point C P -> produced_point C Q -> positive_sumb C x1 y1 z1 t1 x2 y2 z2 t2 = true -> positive_sum C P Q.
Proof.
  intros -> -> (? & ? & ? & ? & E & X1 & Y1 & Z1 & T1) (? & ? & ? & ? & E' & X2 & Y2 & Z2 & T2) K. injection E as <- <- <- <-. injection E' as <- <- <- <-.
  unfold positive_sumb in K. rewrite !andb_true_iff, !Z.leb_le in K. destruct K as (((K1 & K2) & K3) & K4). fold F in K1, K2, K3, K4.
  destruct (mulw_ok F t1 (d_words C) HF (pw _ T1) (pw _ (d_produced C HC))) as (Rt & Pt). destruct (mulw_ok F _ t2 HF (pw _ Pt) (pw _ T2)) as (Rc & Pc).
  destruct (mulw_ok F x1 x2 HF (pw _ X1) (pw _ X2)) as (Ra & Pa). destruct (mulw_ok F y1 y2 HF (pw _ Y1) (pw _ Y2)) as (Rb & Pb).
  destruct (mulw_ok F z1 z2 HF (pw _ Z1) (pw _ Z2)) as (Rz & Pz).
  destruct (addw_ok F x1 y1 HF (pa _ X1) (pa _ Y1)) as (R1 & P1). destruct (addw_ok F x2 y2 HF (pa _ X2) (pa _ Y2)) as (R2 & P2).
  destruct (mulw_ok F _ _ HF (pw _ P1) (pw _ P2)) as (Rm & Pm). destruct (subw_ok F _ _ HF (pa _ Pm) (pa _ Pa)) as (Ru & Pu).
  destruct (subw_ok F _ _ HF (pa _ Pu) (pa _ Pb)) as (Re & _). destruct (subw_ok F _ _ HF (pa _ Pz) (pa _ Pc)) as (Rf & _).
  destruct (addw_ok F _ _ HF (pa _ Pz) (pa _ Pc)) as (Rg & _). destruct (subw_ok F _ _ HF (pa _ Pb) (pa _ Pa)) as (Rh & _).
  exists x1, y1, z1, t1, x2, y2, z2, t2, (d_words C). do 13 eexists. split; [reflexivity|]. split; [reflexivity|]. split; [exact d_point|].
  split; [exact Ra|]. split; [exact Rb|]. split; [exact Rt|]. split; [exact Rc|]. split; [exact Rz|]. split; [exact R1|]. split; [exact R2|]. split; [exact Rm|].
  split; [exact Ru|]. split; [exact Re|]. split; [exact Rf|]. split; [exact Rg|]. split; [exact Rh|]. auto.
Qed.
Lemma positive_doubleb_yes P x y z t : P = Ext (VArr x) (VArr y) (VArr z) (VArr t) ->
  produced_point C P -> positive_doubleb C x y z = true -> positive_double C P.
Proof.
  intros -> (? & ? & ? & ? & E & X1 & Y1 & Z1 & T1) K. injection E as <- <- <- <-.
  unfold positive_doubleb in K. rewrite !andb_true_iff, !Z.leb_le in K. destruct K as (((K1 & K2) & K3) & K4). fold F in K1, K2, K3, K4.
  destruct (sqw_ok F x HF X1) as (Ra & Pa). destruct (sqw_ok F y HF Y1) as (Rb & Pb). destruct (sqw_ok F z HF Z1) as (Rz & Pz).
  destruct (dblw_ok F _ HF Pz) as (Rc & Pc). destruct (addw_ok F x y HF (pa _ X1) (pa _ Y1)) as (Rs & Ps). destruct (sqw_ok F _ HF Ps) as (Rm & Pm).
  destruct (subw_ok F _ _ HF (pa _ Pm) (pa _ Pa)) as (Ru & Pu). destruct (subw_ok F _ _ HF (pa _ Pu) (pa _ Pb)) as (Re & _).
  destruct (addw_ok F _ _ HF (pa _ Pa) (pa _ Pb)) as (Rg & Pg). destruct (subw_ok F _ _ HF (pa _ Pg) (wa _ Pc)) as (Rf & _).
  destruct (subw_ok F _ _ HF (pa _ Pa) (pa _ Pb)) as (Rh & _).
  exists x, y, z, t. do 11 eexists. split; [reflexivity|].
  split; [exact Ra|]. split; [exact Rb|]. split; [exact Rz|]. split; [exact Rc|]. split; [exact Rs|]. split; [exact Rm|]. split; [exact Ru|]. split; [exact Re|].
  split; [exact Rg|]. split; [exact Rf|]. split; [exact Rh|]. auto.
Qed.
End Cases.

Definition scaled (C : crv) (A : affine) (l : Z) : ext :=
  let v z := VArr (words (cv_fld C) z) in let p := cv_p C in
  Ext (v (small_mod p (fst A * l))) (v (small_mod p (snd A * l))) (v l) (v (small_mod p (fst A * snd A * l))).
Definition scaledb (C : crv) (A : affine) (l : Z) : bool :=
  let c z := canonicalb (cv_fld C) (words (cv_fld C) z) in let p := cv_p C in
  c (small_mod p (fst A * l)) && c (small_mod p (snd A * l)) && c l && c (small_mod p (fst A * snd A * l)) && reprb C (scaled C A l) A && curveb (cv_p C) (cv_d C) A.
Lemma scaledb_yes C A l : scaledb C A l = true -> canonical_point C (scaled C A l) /\ represents C (scaled C A l) A /\ on_curve (cv_p C) (cv_d C) A.
Proof.
  unfold scaledb. rewrite !andb_true_iff. intros (((((H1 & H2) & H3) & H4) & H5) & H6). split; [|split; [now apply reprb_yes|]].
  - do 4 eexists. split; [reflexivity|]. split; [|split; [|split]]; now apply canonicalb_ok.
  - destruct A as [x y]. now apply eqpb_yes.
Qed.
Definition wa1 : affine := (12, 4457672964072843964498410889372189796546375852468994871611876254249093268118107657680403400650794967353595350756838).
Definition wa2 : affine := (13, 9341364608633567444616592965958358014970559678492104202985057252686395370314909851807312642958080222177910049496602).
Definition wd : affine := (7, 4673365841898611514615017649193822062725583621619951816126004011895442520672788349424866323969892863701968798358350).
Definition wb1 : affine := (4, 5824844541039376651968436975606858879648160855606717407855823754103).
Definition wb2 : affine := (18, 5215756961628909894331523123389943556049941446413480843082163214238).
Definition we : affine := (19, 345791761126074633526506165121590655971709081965184962843382957127).
Definition lb1 := 850055625212796207293046771258293481797044075976316092292837563824.
Definition lb2 := 4311291411170021976120955972722163986062878399642918550195461312088.
Definition le := 672979132663253545363182395700125597525177762131747689787643283718.

Lemma add_case : let C := E_382 in let P := scaled C wa1 1 in let Q := scaled C wa2 1 in
  produced_point C P /\ produced_point C Q /\ represents C P wa1 /\ represents C Q wa2 /\
  (exists S, edwards_sum (cv_p C) (cv_d C) wa1 wa2 S) /\ clean_sum C P Q.
Proof.
  assert (HC : In E_382 all_curves) by (cbn; tauto).
  destruct (scaledb_yes E_382 wa1 1 ltac:(vm_compute; reflexivity)) as (C1 & R1 & O1). destruct (scaledb_yes E_382 wa2 1 ltac:(vm_compute; reflexivity)) as (C2 & R2 & O2).
  apply (canonical_produced _ HC) in C1, C2. cbv zeta. split; [exact C1|]. split; [exact C2|]. split; [exact R1|]. split; [exact R2|]. split.
  - destruct (curve_complete E_382 HC _ _ O1 O2) as (S & E & _). exists S. exact E.
  - eapply (clean_sumb_yes E_382 HC); [reflexivity|reflexivity|exact C1|exact C2|vm_compute; reflexivity].
Qed.
Lemma double_case : let C := E_382 in let P := scaled C wd 1 in
  produced_point C P /\ represents C P wd /\ on_curve (cv_p C) (cv_d C) wd /\ (exists S, edwards_sum (cv_p C) (cv_d C) wd wd S) /\ clean_double C P.
Proof.
  assert (HC : In E_382 all_curves) by (cbn; tauto).
  destruct (scaledb_yes E_382 wd 1 ltac:(vm_compute; reflexivity)) as (C1 & R1 & O1).
  apply (canonical_produced _ HC) in C1. cbv zeta. split; [exact C1|]. split; [exact R1|]. split; [exact O1|]. split.
  - destruct (curve_complete E_382 HC _ _ O1 O1) as (S & E & _). exists S. exact E.
  - eapply (clean_doubleb_yes E_382 HC); [reflexivity|exact C1|vm_compute; reflexivity].
Qed.
Lemma add_two_case : let C := E_222 in let P := scaled C wb1 lb1 in let Q := scaled C wb2 lb2 in
  canonical_point C P /\ canonical_point C Q /\ represents C P wb1 /\ represents C Q wb2 /\
  (exists S, edwards_sum (cv_p C) (cv_d C) wb1 wb2 S) /\ clean_sum C P Q /\ positive_sum C P Q.
Proof.
  assert (HC : In E_222 all_curves) by (cbn; tauto).
  destruct (scaledb_yes E_222 wb1 lb1 ltac:(vm_compute; reflexivity)) as (C1 & R1 & O1). destruct (scaledb_yes E_222 wb2 lb2 ltac:(vm_compute; reflexivity)) as (C2 & R2 & O2).
  cbv zeta. split; [exact C1|]. split; [exact C2|]. apply (canonical_produced _ HC) in C1, C2. split; [exact R1|]. split; [exact R2|]. split; [|split].
  - destruct (curve_complete E_222 HC _ _ O1 O2) as (S & E & _). exists S. exact E.
  - eapply (clean_sumb_yes E_222 HC); [reflexivity|reflexivity|exact C1|exact C2|vm_compute; reflexivity].
  - eapply (positive_sumb_yes E_222 HC); [reflexivity|reflexivity|exact C1|exact C2|vm_compute; reflexivity].
Qed.
Lemma double_two_case : let C := E_222 in let P := scaled C we le in
  produced_point C P /\ represents C P we /\ on_curve (cv_p C) (cv_d C) we /\ (exists S, edwards_sum (cv_p C) (cv_d C) we we S) /\
  clean_double C P /\ positive_double C P.
Proof.
  assert (HC : In E_222 all_curves) by (cbn; tauto).
  destruct (scaledb_yes E_222 we le ltac:(vm_compute; reflexivity)) as (C1 & R1 & O1).
  apply (canonical_produced _ HC) in C1. cbv zeta. split; [exact C1|]. split; [exact R1|]. split; [exact O1|]. split; [|split].
  - destruct (curve_complete E_222 HC _ _ O1 O1) as (S & E & _). exists S. exact E.
  - eapply (clean_doubleb_yes E_222 HC); [reflexivity|exact C1|vm_compute; reflexivity].
  - eapply (positive_doubleb_yes E_222 HC); [reflexivity|exact C1|vm_compute; reflexivity].
Qed.
Definition wf : affine := (6, 1150284099095102023466783203375786909882294188807508262962337075267851059112619868727948299835490804192496656949293638378794043954453421576024077764390345187).
Lemma double_521_case : let C := E_521 in let P := scaled C wf 1 in
  produced_point C P /\ represents C P wf /\ on_curve (cv_p C) (cv_d C) wf /\ (exists S, edwards_sum (cv_p C) (cv_d C) wf wf S) /\ clean_double C P.
Proof.
  assert (HC : In E_521 all_curves) by (cbn; tauto).
  destruct (scaledb_yes E_521 wf 1 ltac:(vm_compute; reflexivity)) as (C1 & R1 & O1).
  apply (canonical_produced _ HC) in C1. cbv zeta. split; [exact C1|]. split; [exact R1|]. split; [exact O1|]. split.
  - destruct (curve_complete E_521 HC _ _ O1 O1) as (S & E & _). exists S. exact E.
  - eapply (clean_doubleb_yes E_521 HC); [reflexivity|exact C1|vm_compute; reflexivity].
Qed.
