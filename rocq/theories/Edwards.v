(** The curve code of src/curve/edwards.rs, symbolically executed over any call
    function whose field calls obey the laws below. *)
From Coq Require Import ZArith Znumtheory List String Lia Bool.
From Verif Require Import Lang NumTheory EdwardsSpec Src_edwards.
Import ListNotations.
Local Open Scope string_scope.
Local Open Scope Z_scope.

(** What the curve code needs of the field functions it calls.  [ok] values are
    what most operations return; [wide] values may also be operands.  [K] is a
    family of call functions (build modes, call depths) with the same results. *)
Record klaws {I : Type} (p d nb : Z) (ok wide canon : val -> Prop) (den : val -> Z) (bitof : val -> Z -> bool) (mask : bool -> val)
    (K : I -> string -> list val -> res (list val * list val)) : Prop := {
  k_incl : forall a, ok a -> wide a;
  k_mul : forall a b, wide a -> wide b -> exists r u v, (forall i, K i "F::mul(F)" [a; b] = Ok ([r], [u; v])) /\ ok r /\ cong p (den r) (den a * den b);
  k_add : forall a b, wide a -> wide b -> exists r u v, (forall i, K i "F::add(F)" [a; b] = Ok ([r], [u; v])) /\ ok r /\ cong p (den r) (den a + den b);
  k_sub : forall a b, wide a -> wide b -> exists r u v, (forall i, K i "F::sub(F)" [a; b] = Ok ([r], [u; v])) /\ ok r /\ cong p (den r) (den a - den b);
  k_squared : forall a, wide a -> exists r u, (forall i, K i "F::squared" [a] = Ok ([r], [u])) /\ ok r /\ cong p (den r) (den a * den a);
  k_small : forall a, ok a -> exists r u v, (forall i, K i "F::small_mul" [a; VInt 2] = Ok ([r], [u; v])) /\ wide r /\ cong p (den r) (den a * 2);
  k_zero : exists r, (forall i, K i "F::zero" [] = Ok ([r], [])) /\ ok r /\ cong p (den r) 0;
  k_one : exists r, (forall i, K i "F::one" [] = Ok ([r], [])) /\ ok r /\ cong p (den r) 1;
  k_d : exists r, (forall i, K i "C::d_val" [] = Ok ([r], [])) /\ ok r /\ cong p (den r) d;
  k_nbits : (forall i, K i "F::nbits" [] = Ok ([VInt nb], [])) /\ 0 < nb < 2 ^ 31;
  k_normalize : forall a, wide a -> exists r, (forall i, K i "F::normalize" [a] = Ok ([], [r])) /\ canon r;
  k_bit : forall a j, canon a -> 0 <= j < nb -> exists u v,
    (forall i, K i "F::bit_normalized" [a; VInt j] = Ok ([VInt (if bitof a j then 1 else 0)], [u; v]));
  k_filled : forall b : bool, exists u, (forall i, K i "F::filled" [VInt (if b then 1 else 0)] = Ok ([mask b], [u]));
  k_select : forall (b : bool) x y, ok x -> ok y -> exists x' y' r u v w,
    (forall i, K i "F::normalized_bitand" [x; mask b] = Ok ([], [x'; u])) /\
    (forall i, K i "F::normalized_bitand" [y; mask (negb b)] = Ok ([], [y'; v])) /\
    (forall i, K i "F::normalized_bitor" [x'; y'] = Ok ([], [r; w])) /\ ok r /\ cong p (den r) (den (if b then x else y)) }.

Section Laws.
Context {I : Type}.
Variables (p d nb : Z) (ok wide canon : val -> Prop) (den : val -> Z) (bitof : val -> Z -> bool) (mask : bool -> val).
Variable K : I -> string -> list val -> res (list val * list val).
Hypothesis L : klaws p d nb ok wide canon den bitof mask K.
Variable md : I -> mode.
Let incl : forall a, ok a -> wide a := k_incl _ _ _ _ _ _ _ _ _ _ L.

Lemma step_bin f op r x y t en vx vy :
  (forall a b, wide a -> wide b -> exists r u v, (forall i, K i f [a; b] = Ok ([r], [u; v])) /\ ok r /\ cong p (den r) (op (den a) (den b))) ->
  lookup x en = Some vx -> lookup y en = Some vy -> wide vx -> wide vy ->
  exists v, (forall i, exec_list (md i) (K i) (SCall [r] f [AVal (EVar x); AVal (EVar y)] :: t) en = exec_list (md i) (K i) t (upd r v en)) /\
    ok v /\ cong p (den v) (op (den vx) (den vy)).
Proof.
  intros H X Y OX OY. destruct (H vx vy OX OY) as (v & u & w & E & O & D). exists v. split; auto. intros i.
  cbn [exec_list exec eval_args eval bind]. unfold get. rewrite X, Y. cbn [bind]. rewrite E.
  cbn [bind fst snd write_back bind_rets]. auto.
Qed.
Lemma step_sq r x t en vx : lookup x en = Some vx -> wide vx ->
  exists v, (forall i, exec_list (md i) (K i) (SCall [r] "F::squared" [AVal (EVar x)] :: t) en = exec_list (md i) (K i) t (upd r v en)) /\
    ok v /\ cong p (den v) (den vx * den vx).
Proof.
  intros X OX. destruct (k_squared _ _ _ _ _ _ _ _ _ _ L vx OX) as (v & u & E & O & D). exists v. split; auto. intros i.
  cbn [exec_list exec eval_args eval bind]. unfold get. rewrite X. cbn [bind]. rewrite E.
  cbn [bind fst snd write_back bind_rets]. auto.
Qed.
Lemma step_small r x t en vx : lookup x en = Some vx -> ok vx ->
  exists v, (forall i, exec_list (md i) (K i) (SCall [r] "F::small_mul" [AVal (EVar x); AVal (EInt 2)] :: t) en = exec_list (md i) (K i) t (upd r v en)) /\
    wide v /\ cong p (den v) (den vx * 2).
Proof.
  intros X OX. destruct (k_small _ _ _ _ _ _ _ _ _ _ L vx OX) as (v & u & w & E & O & D). exists v. split; auto. intros i.
  cbn [exec_list exec eval_args eval bind]. unfold get. rewrite X. cbn [bind]. rewrite E.
  cbn [bind fst snd write_back bind_rets]. auto.
Qed.
Lemma step_const f c r t en : (exists v, (forall i, K i f [] = Ok ([v], [])) /\ ok v /\ cong p (den v) c) ->
  exists v, (forall i, exec_list (md i) (K i) (SCall [r] f [] :: t) en = exec_list (md i) (K i) t (upd r v en)) /\ ok v /\ cong p (den v) c.
Proof.
  intros (v & E & O & D). exists v. split; auto. intros i. cbn [exec_list exec eval_args bind]. rewrite E.
  cbn [bind fst snd write_back bind_rets]. auto.
Qed.
Lemma step_let x y t en v : lookup y en = Some v -> forall i, exec_list (md i) (K i) (SLet x (EVar y) :: t) en = exec_list (md i) (K i) t (upd x v en).
Proof. intros Y i. cbn [exec_list exec eval]. unfold get. now rewrite Y. Qed.

(* [at_ l en]: the statements still to run and the environment reached *)
Definition at_ (l : list stmt) (en : env) : Prop := True.
Ltac known := first [assumption | apply incl; assumption].
Ltac bring H t E := cbn [upd String.eqb Ascii.eqb Bool.eqb] in E;
  match type of E with forall i, _ = exec_list _ _ _ ?en => clear H; assert (H : at_ t en) by exact Logic.I end.
Ltac step :=
  let v := fresh "v" in let E := fresh "E" in let O := fresh "O" in let D := fresh "D" in
  lazymatch goal with
  | H : at_ (SCall [?r] "F::mul(F)" [AVal (EVar ?x); AVal (EVar ?y)] :: ?t) ?en |- _ =>
      edestruct (step_bin "F::mul(F)" Z.mul r x y t en) as (v & E & O & D);
        [exact (k_mul _ _ _ _ _ _ _ _ _ _ L)|reflexivity|reflexivity|known|known|bring H t E]
  | H : at_ (SCall [?r] "F::add(F)" [AVal (EVar ?x); AVal (EVar ?y)] :: ?t) ?en |- _ =>
      edestruct (step_bin "F::add(F)" Z.add r x y t en) as (v & E & O & D);
        [exact (k_add _ _ _ _ _ _ _ _ _ _ L)|reflexivity|reflexivity|known|known|bring H t E]
  | H : at_ (SCall [?r] "F::sub(F)" [AVal (EVar ?x); AVal (EVar ?y)] :: ?t) ?en |- _ =>
      edestruct (step_bin "F::sub(F)" Z.sub r x y t en) as (v & E & O & D);
        [exact (k_sub _ _ _ _ _ _ _ _ _ _ L)|reflexivity|reflexivity|known|known|bring H t E]
  | H : at_ (SCall [?r] "F::squared" [AVal (EVar ?x)] :: ?t) ?en |- _ =>
      edestruct (step_sq r x t en) as (v & E & O & D); [reflexivity|known|bring H t E]
  | H : at_ (SCall [?r] "F::small_mul" [AVal (EVar ?x); AVal (EInt 2)] :: ?t) ?en |- _ =>
      edestruct (step_small r x t en) as (v & E & O & D); [reflexivity|assumption|bring H t E]
  | H : at_ (SCall [?r] "C::d_val" [] :: ?t) ?en |- _ =>
      destruct (step_const "C::d_val" d r t en (k_d _ _ _ _ _ _ _ _ _ _ L)) as (v & E & O & D); bring H t E
  | H : at_ (SCall [?r] "F::zero" [] :: ?t) ?en |- _ =>
      destruct (step_const "F::zero" 0 r t en (k_zero _ _ _ _ _ _ _ _ _ _ L)) as (v & E & O & D); bring H t E
  | H : at_ (SCall [?r] "F::one" [] :: ?t) ?en |- _ =>
      destruct (step_const "F::one" 1 r t en (k_one _ _ _ _ _ _ _ _ _ _ L)) as (v & E & O & D); bring H t E
  | H : at_ (SLet ?x (EVar ?y) :: ?t) ?en |- _ =>
      pose proof (step_let x y t en _ eq_refl) as E; bring H t E
  end.
Ltac start f vs := 
  let l := eval cbv [f f_body] in (f_body f) in
  let ps := eval cbv [f f_params] in (f_params f) in
  let en := eval cbn [combine] in (combine ps vs) in
  assert (Start : at_ l en) by exact Logic.I.
Ltac finish f :=
  let i := fresh "i" in
  intros i; unfold run_func, f; cbn [f_params f_body f_rets List.length Nat.eqb combine];
  repeat match goal with E : forall i, exec_list (md i) (K i) ?l ?en = _ |- context [exec_list (md i) (K i) ?l ?en] => rewrite (E i); clear E end;
  cbn [exec_list bind evals eval gets get lookup String.eqb Ascii.eqb Bool.eqb]; reflexivity.
(* replace the denotation of every result by its definition *)
Ltac dens :=
  lazymatch goal with
  | |- cong p ?a ?a => reflexivity
  | D : cong p (den ?v) _ |- cong p (den ?v) _ => transitivity_by D
  | |- cong p (_ * _) (_ * _) => apply cong_mul; dens
  | |- cong p (_ + _) (_ + _) => apply cong_add; dens
  | |- cong p (_ - _) (_ - _) => apply cong_sub; dens
  end
with transitivity_by D := (etransitivity; [exact D|]; dens).
Definition add_spec (X1 Y1 Z1 T1 X2 Y2 Z2 T2 X3 Y3 Z3 T3 : Z) : Prop :=
  let a := X1 * X2 in let b := Y1 * Y2 in let c := T1 * d * T2 in let dd := Z1 * Z2 in
  let e := (X1 + Y1) * (X2 + Y2) - a - b in let f := dd - c in let g := dd + c in let h := b - a in
  cong p X3 (e * f) /\ cong p Y3 (g * h) /\ cong p Z3 (f * g) /\ cong p T3 (e * h).
Definition double_spec (X1 Y1 Z1 X3 Y3 Z3 T3 : Z) : Prop :=
  let a := X1 * X1 in let b := Y1 * Y1 in let c := Z1 * Z1 * 2 in
  let e := (X1 + Y1) * (X1 + Y1) - a - b in let g := a + b in let f := g - c in let h := a - b in
  cong p X3 (e * f) /\ cong p Y3 (g * h) /\ cong p Z3 (f * g) /\ cong p T3 (e * h).
Definition triple_spec (X Y Z XX YY ZZ TT : Z) : Prop :=
  let yy := Y * Y in let xx := X * X in let ap := yy + xx in let b := (Z * Z * 2 - ap) * 2 in
  let xb := xx * b in let yb := yy * b in let aa := ap * (yy - xx) in let f := aa - yb in let g := aa - xb in
  let xe := X * (yb + aa) in let yh := Y * (xb - aa) in
  cong p XX (xe * (Z * f)) /\ cong p YY (yh * (Z * g)) /\ cong p ZZ (Z * f * (Z * g)) /\ cong p TT (xe * yh).

Lemma add_body X1 Y1 Z1 T1 X2 Y2 Z2 T2 : ok X1 -> ok Y1 -> ok Z1 -> ok T1 -> ok X2 -> ok Y2 -> ok Z2 -> ok T2 ->
  exists X3 Y3 Z3 T3, (forall i, run_func (md i) (K i) f_P_add_assign_ref [X1; Y1; Z1; T1; X2; Y2; Z2; T2] =
      Ok ([], [X3; Y3; Z3; T3; X2; Y2; Z2; T2])) /\ ok X3 /\ ok Y3 /\ ok Z3 /\ ok T3 /\
    add_spec (den X1) (den Y1) (den Z1) (den T1) (den X2) (den Y2) (den Z2) (den T2) (den X3) (den Y3) (den Z3) (den T3).
Proof.
  intros OX1 OY1 OZ1 OT1 OX2 OY2 OZ2 OT2. start f_P_add_assign_ref [X1; Y1; Z1; T1; X2; Y2; Z2; T2]. repeat step.
  do 4 eexists. split; [finish f_P_add_assign_ref|]. do 4 (split; [assumption|]). unfold add_spec.
  split; [|split; [|split]]; dens.
Qed.
Lemma double_body X1 Y1 Z1 T1 : ok X1 -> ok Y1 -> ok Z1 ->
  exists X3 Y3 Z3 T3, (forall i, run_func (md i) (K i) f_P_double [X1; Y1; Z1; T1] = Ok ([], [X3; Y3; Z3; T3])) /\ ok X3 /\ ok Y3 /\ ok Z3 /\ ok T3 /\
    double_spec (den X1) (den Y1) (den Z1) (den X3) (den Y3) (den Z3) (den T3).
Proof.
  intros OX1 OY1 OZ1. start f_P_double [X1; Y1; Z1; T1]. repeat step.
  do 4 eexists. split; [finish f_P_double|]. do 4 (split; [assumption|]). unfold double_spec.
  split; [|split; [|split]]; dens.
Qed.
Lemma triple_body X1 Y1 Z1 T1 : ok X1 -> ok Y1 -> ok Z1 ->
  exists X3 Y3 Z3 T3, (forall i, run_func (md i) (K i) f_P_triple [X1; Y1; Z1; T1] = Ok ([], [X3; Y3; Z3; T3])) /\ ok X3 /\ ok Y3 /\ ok Z3 /\ ok T3 /\
    triple_spec (den X1) (den Y1) (den Z1) (den X3) (den Y3) (den Z3) (den T3).
Proof.
  intros OX1 OY1 OZ1. start f_P_triple [X1; Y1; Z1; T1]. repeat step.
  do 4 eexists. split; [finish f_P_triple|]. do 4 (split; [assumption|]). unfold triple_spec.
  split; [|split; [|split]]; dens.
Qed.
Lemma zero_body : exists X Y Z T, (forall i, run_func (md i) (K i) f_P_zero [] = Ok ([X; Y; Z; T], [])) /\ ok X /\ ok Y /\ ok Z /\ ok T /\
  cong p (den X) 0 /\ cong p (den Y) 1 /\ cong p (den Z) 1 /\ cong p (den T) 1.
Proof.
  start f_P_zero (@nil val). repeat step. do 4 eexists. split; [finish f_P_zero|]. repeat (split; [assumption|]). assumption.
Qed.
Lemma init_body X0 Y0 Z0 T0 x y : exists Z T, (forall i, run_func (md i) (K i) f_P_init [X0; Y0; Z0; T0; x; y] = Ok ([], [x; y; Z; T; x; y])) /\ ok Z /\ ok T /\
  cong p (den Z) 1 /\ cong p (den T) 1.
Proof.
  start f_P_init [X0; Y0; Z0; T0; x; y]. repeat step. do 2 eexists. split; [finish f_P_init|]. repeat (split; [assumption|]). assumption.
Qed.
End Laws.

(** ** The same as equations between residues *)
Lemma quad_eq (a b c d a' b' c' d' : Z) : a = a' -> b = b' -> c = c' -> d = d' -> (a, b, c, d) = (a', b', c', d').
Proof. congruence. Qed.
Section Quads.
Variables p d : Z.
Hypothesis p0 : p <> 0.
Local Ltac low := first [reflexivity | symmetry; apply cong_mod; assumption
  | apply cong_mul; low | apply cong_add; low | apply cong_sub; low].
Local Ltac quads := apply quad_eq; apply cong_mod_eq; auto; (etransitivity; [eassumption|low]).
Lemma add_quad X1 Y1 Z1 T1 X2 Y2 Z2 T2 X3 Y3 Z3 T3 : add_spec p d X1 Y1 Z1 T1 X2 Y2 Z2 T2 X3 Y3 Z3 T3 ->
  (X3 mod p, Y3 mod p, Z3 mod p, T3 mod p) = quad_sum p d (X1 mod p, Y1 mod p, Z1 mod p, T1 mod p) (X2 mod p, Y2 mod p, Z2 mod p, T2 mod p).
Proof. intros (A & B & C & D). cbv zeta in A, B, C, D. unfold quad_sum. cbv zeta. quads. Qed.
Lemma double_quad X1 Y1 Z1 T1 X3 Y3 Z3 T3 : double_spec p X1 Y1 Z1 X3 Y3 Z3 T3 ->
  (X3 mod p, Y3 mod p, Z3 mod p, T3 mod p) = quad_double p (X1 mod p, Y1 mod p, Z1 mod p, T1).
Proof.
  unfold double_spec. rewrite (Z.mul_comm (Z1 * Z1) 2). intros (A & B & C & D). cbv zeta in A, B, C, D. unfold quad_double. cbv zeta. quads.
Qed.
Lemma triple_quad X1 Y1 Z1 T1 X3 Y3 Z3 T3 : triple_spec p X1 Y1 Z1 X3 Y3 Z3 T3 ->
  (X3 mod p, Y3 mod p, Z3 mod p, T3 mod p) = quad_triple p (X1 mod p, Y1 mod p, Z1 mod p, T1).
Proof.
  unfold triple_spec. cbv zeta.
  replace ((Z1 * Z1 * 2 - (Y1 * Y1 + X1 * X1)) * 2) with (2 * (2 * (Z1 * Z1) - (Y1 * Y1 + X1 * X1))) by ring.
  intros (A & B & C & D). unfold quad_triple. cbv zeta. quads.
Qed.
End Quads.

(** ** The whole table: [T] extends the curve functions, and from call depth
    [k0] on the field calls obey the laws. *)
Section Curve.
Variables (p d nb : Z) (ok wide canon : val -> Prop) (den : val -> Z) (bitof : val -> Z -> bool) (mask : bool -> val).
Variable base : string -> list val -> res (list val * list val).
Variable T : list (string * func).
Variable k0 : nat.
Definition from (n : nat) (i : mode * nat) := call (fst i) base T (n + snd i).
Hypothesis p0 : p <> 0.
Hypothesis HT : forall f fn, lookup f Src_edwards.table = Some fn -> lookup f T = Some fn.
Hypothesis L : klaws p d nb ok wide canon den bitof mask (from k0).

(** from depth [n] on, in both builds, the call has this result *)
Definition calls (n : nat) f vs r : Prop := forall md k, (n <= k)%nat -> call md base T k f vs = Ok r.

Lemma from_calls n f vs r : (forall i, from n i f vs = Ok r) <-> calls n f vs r.
Proof.
  unfold from, calls. split; intros H.
  - intros md k Hk. replace k with (n + (k - n))%nat by lia. apply (H (md, (k - n)%nat)).
  - intros (md, k). apply H. cbn [snd]. lia.
Qed.
Lemma enter n f fn vs r : lookup f Src_edwards.table = Some fn ->
  (forall i, run_func (fst i) (from n i) fn vs = Ok r) -> calls (S n) f vs r.
Proof.
  intros E H md k Hk. destruct k as [|k]; [lia|]. cbn [call]. rewrite (HT _ _ E).
  specialize (H (md, (k - n)%nat)). unfold from in H. cbn [fst snd] in H. replace (n + (k - n))%nat with k in H by lia. exact H.
Qed.
Lemma calls_weaken n m f vs r : (n <= m)%nat -> calls n f vs r -> calls m f vs r.
Proof. intros H C md k Hk. apply C. lia. Qed.

Lemma add_ref_call X1 Y1 Z1 T1 X2 Y2 Z2 T2 :
  ok X1 -> ok Y1 -> ok Z1 -> ok T1 -> ok X2 -> ok Y2 -> ok Z2 -> ok T2 ->
  exists X3 Y3 Z3 T3, calls (S k0) "P::add_assign(&P)" [X1; Y1; Z1; T1; X2; Y2; Z2; T2] ([], [X3; Y3; Z3; T3; X2; Y2; Z2; T2]) /\
    ok X3 /\ ok Y3 /\ ok Z3 /\ ok T3 /\
    add_spec p d (den X1) (den Y1) (den Z1) (den T1) (den X2) (den Y2) (den Z2) (den T2) (den X3) (den Y3) (den Z3) (den T3).
Proof.
  intros A1 A2 A3 A4 B1 B2 B3 B4.
  destruct (add_body _ _ _ _ _ _ _ _ _ _ L fst _ _ _ _ _ _ _ _ A1 A2 A3 A4 B1 B2 B3 B4) as (X3 & Y3 & Z3 & T3 & E & R).
  exists X3, Y3, Z3, T3. split; [|exact R]. now apply (enter k0 _ f_P_add_assign_ref).
Qed.
Lemma double_call X1 Y1 Z1 T1 : ok X1 -> ok Y1 -> ok Z1 ->
  exists X3 Y3 Z3 T3, calls (S k0) "P::double" [X1; Y1; Z1; T1] ([], [X3; Y3; Z3; T3]) /\ ok X3 /\ ok Y3 /\ ok Z3 /\ ok T3 /\
    double_spec p (den X1) (den Y1) (den Z1) (den X3) (den Y3) (den Z3) (den T3).
Proof.
  intros A1 A2 A3. destruct (double_body _ _ _ _ _ _ _ _ _ _ L fst _ _ _ T1 A1 A2 A3) as (X3 & Y3 & Z3 & T3 & E & R).
  exists X3, Y3, Z3, T3. split; [|exact R]. now apply (enter k0 _ f_P_double).
Qed.
Lemma triple_call X1 Y1 Z1 T1 : ok X1 -> ok Y1 -> ok Z1 ->
  exists X3 Y3 Z3 T3, calls (S k0) "P::triple" [X1; Y1; Z1; T1] ([], [X3; Y3; Z3; T3]) /\ ok X3 /\ ok Y3 /\ ok Z3 /\ ok T3 /\
    triple_spec p (den X1) (den Y1) (den Z1) (den X3) (den Y3) (den Z3) (den T3).
Proof.
  intros A1 A2 A3. destruct (triple_body _ _ _ _ _ _ _ _ _ _ L fst _ _ _ T1 A1 A2 A3) as (X3 & Y3 & Z3 & T3 & E & R).
  exists X3, Y3, Z3, T3. split; [|exact R]. now apply (enter k0 _ f_P_triple).
Qed.
Lemma zero_call : exists X Y Z T, calls (S k0) "P::zero" [] ([X; Y; Z; T], []) /\ ok X /\ ok Y /\ ok Z /\ ok T /\
  cong p (den X) 0 /\ cong p (den Y) 1 /\ cong p (den Z) 1 /\ cong p (den T) 1.
Proof.
  destruct (zero_body _ _ _ _ _ _ _ _ _ _ L fst) as (X3 & Y3 & Z3 & T3 & E & R).
  exists X3, Y3, Z3, T3. split; [|exact R]. now apply (enter k0 _ f_P_zero).
Qed.
Lemma init_call X0 Y0 Z0 T0 x y : exists Z T, calls (S k0) "P::init" [X0; Y0; Z0; T0; x; y] ([], [x; y; Z; T; x; y]) /\ ok Z /\ ok T /\
  cong p (den Z) 1 /\ cong p (den T) 1.
Proof.
  destruct (init_body _ _ _ _ _ _ _ _ _ _ L fst X0 Y0 Z0 T0 x y) as (Z3 & T3 & E & R).
  exists Z3, T3. split; [|exact R]. now apply (enter k0 _ f_P_init).
Qed.

Ltac fin := cbn [exec_list exec eval_args eval bind get lookup String.eqb Ascii.eqb Bool.eqb evals gets fst snd write_back bind_rets upd].
Ltac start f := let i := fresh "i" in intros i; unfold run_func, f; cbn [f_params f_body f_rets List.length Nat.eqb combine]; fin.
(* the other spellings of addition, doubling and tripling *)
Lemma add_val_call n X1 Y1 Z1 T1 X2 Y2 Z2 T2 X3 Y3 Z3 T3 o :
  calls n "P::add_assign(&P)" [X1; Y1; Z1; T1; X2; Y2; Z2; T2] ([], X3 :: Y3 :: Z3 :: T3 :: o) -> List.length o = 4%nat ->
  calls (S n) "P::add_assign(P)" [X1; Y1; Z1; T1; X2; Y2; Z2; T2] ([], [X3; Y3; Z3; T3; X2; Y2; Z2; T2]) /\
  calls (S n) "(&P)::add(&P)" [X1; Y1; Z1; T1; X2; Y2; Z2; T2] ([X3; Y3; Z3; T3], [X1; Y1; Z1; T1; X2; Y2; Z2; T2]) /\
  calls (S (S n)) "P::add(P)" [X1; Y1; Z1; T1; X2; Y2; Z2; T2] ([X3; Y3; Z3; T3], [X1; Y1; Z1; T1; X2; Y2; Z2; T2]).
Proof.
  intros C Lo. destruct o as [|o1 [|o2 [|o3 [|o4 [|]]]]]; try discriminate Lo. rewrite <- from_calls in C.
  assert (R : calls (S n) "(&P)::add(&P)" [X1; Y1; Z1; T1; X2; Y2; Z2; T2] ([X3; Y3; Z3; T3], [X1; Y1; Z1; T1; X2; Y2; Z2; T2])).
  { apply (enter n _ f_Pref_add_ref); [reflexivity|]. start f_Pref_add_ref. rewrite C. fin. reflexivity. }
  split; [|split; [exact R|]].
  - apply (enter n _ f_P_add_assign_val); [reflexivity|]. start f_P_add_assign_val. rewrite C. fin. reflexivity.
  - rewrite <- from_calls in R. apply (enter (S n) _ f_P_add_val); [reflexivity|]. start f_P_add_val. rewrite R. fin. reflexivity.
Qed.
Lemma doubled_call n X1 Y1 Z1 T1 X3 Y3 Z3 T3 : calls n "P::double" [X1; Y1; Z1; T1] ([], [X3; Y3; Z3; T3]) ->
  calls (S n) "P::doubled" [X1; Y1; Z1; T1] ([X3; Y3; Z3; T3], [X1; Y1; Z1; T1]).
Proof.
  intros C. rewrite <- from_calls in C. apply (enter n _ f_P_doubled); [reflexivity|]. start f_P_doubled. rewrite C. fin. reflexivity.
Qed.
Lemma tripled_call n X1 Y1 Z1 T1 X3 Y3 Z3 T3 : calls n "P::triple" [X1; Y1; Z1; T1] ([], [X3; Y3; Z3; T3]) ->
  calls (S n) "P::tripled" [X1; Y1; Z1; T1] ([X3; Y3; Z3; T3], [X1; Y1; Z1; T1]).
Proof.
  intros C. rewrite <- from_calls in C. apply (enter n _ f_P_tripled); [reflexivity|]. start f_P_tripled. rewrite C. fin. reflexivity.
Qed.

(** *** The ladder *)
Definition ok4 (P : val * val * val * val) : Prop := let '(x, y, z, t) := P in ok x /\ ok y /\ ok z /\ ok t.
Lemma and_call x y z t m x' y' z' t' u1 u2 u3 u4 :
  calls k0 "F::normalized_bitand" [x; m] ([], [x'; u1]) -> calls k0 "F::normalized_bitand" [y; m] ([], [y'; u2]) ->
  calls k0 "F::normalized_bitand" [z; m] ([], [z'; u3]) -> calls k0 "F::normalized_bitand" [t; m] ([], [t'; u4]) ->
  calls (S k0) "P::normalized_bitand" [x; y; z; t; m] ([], [x'; y'; z'; t'; m]).
Proof.
  intros C1 C2 C3 C4. rewrite <- from_calls in C1, C2, C3, C4. apply (enter k0 _ f_P_normalized_bitand); [reflexivity|].
  start f_P_normalized_bitand. rewrite C1. fin. rewrite C2. fin. rewrite C3. fin. rewrite C4. fin. reflexivity.
Qed.
Lemma or_call x y z t x2 y2 z2 t2 x' y' z' t' u1 u2 u3 u4 :
  calls k0 "F::normalized_bitor" [x; x2] ([], [x'; u1]) -> calls k0 "F::normalized_bitor" [y; y2] ([], [y'; u2]) ->
  calls k0 "F::normalized_bitor" [z; z2] ([], [z'; u3]) -> calls k0 "F::normalized_bitor" [t; t2] ([], [t'; u4]) ->
  calls (S k0) "P::normalized_bitor" [x; y; z; t; x2; y2; z2; t2] ([], [x'; y'; z'; t'; x2; y2; z2; t2]).
Proof.
  intros C1 C2 C3 C4. rewrite <- from_calls in C1, C2, C3, C4. apply (enter k0 _ f_P_normalized_bitor); [reflexivity|].
  start f_P_normalized_bitor. rewrite C1. fin. rewrite C2. fin. rewrite C3. fin. rewrite C4. fin. reflexivity.
Qed.
Lemma select_call (b : bool) x y z t x2 y2 z2 t2 : ok x -> ok y -> ok z -> ok t -> ok x2 -> ok y2 -> ok z2 -> ok t2 ->
  exists xa ya za ta xb yb zb tb xr yr zr tr,
    calls (S k0) "P::normalized_bitand" [x; y; z; t; mask b] ([], [xa; ya; za; ta; mask b]) /\
    calls (S k0) "P::normalized_bitand" [x2; y2; z2; t2; mask (negb b)] ([], [xb; yb; zb; tb; mask (negb b)]) /\
    calls (S k0) "P::normalized_bitor" [xa; ya; za; ta; xb; yb; zb; tb] ([], [xr; yr; zr; tr; xb; yb; zb; tb]) /\
    ok xr /\ ok yr /\ ok zr /\ ok tr /\
    cong p (den xr) (den (if b then x else x2)) /\ cong p (den yr) (den (if b then y else y2)) /\
    cong p (den zr) (den (if b then z else z2)) /\ cong p (den tr) (den (if b then t else t2)).
Proof.
  intros A1 A2 A3 A4 B1 B2 B3 B4. pose proof (k_select _ _ _ _ _ _ _ _ _ _ L b) as S.
  destruct (S x x2 A1 B1) as (xa & xb & xr & ? & ? & ? & E1 & E2 & E3 & Ox & Dx).
  destruct (S y y2 A2 B2) as (ya & yb & yr & ? & ? & ? & F1 & F2 & F3 & Oy & Dy).
  destruct (S z z2 A3 B3) as (za & zb & zr & ? & ? & ? & G1 & G2 & G3 & Oz & Dz).
  destruct (S t t2 A4 B4) as (ta & tb & tr & ? & ? & ? & H1 & H2 & H3 & Ot & Dt).
  rewrite from_calls in *. exists xa, ya, za, ta, xb, yb, zb, tb, xr, yr, zr, tr.
  split; [eapply and_call; eassumption|split; [eapply and_call; eassumption|split; [eapply or_call; eassumption|auto 8]]].
Qed.

Lemma exec_cons md K s t en : exec_list md K (s :: t) en = bind (exec md K s en) (exec_list md K t).
Proof. reflexivity. Qed.
Ltac one := cbn [exec eval_args eval bind get lookup String.eqb Ascii.eqb Bool.eqb fst snd write_back bind_rets upd].
Ltac nxt := rewrite exec_cons; one.

Section Ladder.
Variables (sx sy sz stt rhs zx zy zz zt : val).
Hypothesis CR : canon rhs.
Definition env0 r0x r0y r0z r0t r1x r1y r1z r1t : env :=
  [("self.x", sx); ("self.y", sy); ("self.z", sz); ("self.t", stt); ("rhs", rhs); ("%1.x", zx); ("%1.y", zy); ("%1.z", zz); ("%1.t", zt);
   ("r0.x", r0x); ("r0.y", r0y); ("r0.z", r0z); ("r0.t", r0t); ("r1.x", r1x); ("r1.y", r1y); ("r1.z", r1z); ("r1.t", r1t); ("nbits", VInt nb)].
Definition env1 r0x r0y r0z r0t r1x r1y r1z r1t i idx bit tm fm d0x d0y d0z d0t d1x d1y d1z d1t : env :=
  (env0 r0x r0y r0z r0t r1x r1y r1z r1t ++
   [("i", i); ("idx", idx); ("bit", bit); ("tmask", tm); ("fmask", fm);
    ("d0.x", d0x); ("d0.y", d0y); ("d0.z", d0z); ("d0.t", d0t); ("d1.x", d1x); ("d1.y", d1y); ("d1.z", d1z); ("d1.t", d1t)])%list.
Definition qd (x y z t : val) : quad := (den x mod p, den y mod p, den z mod p, den t mod p).
Definition ready (en : env) (Q0 Q1 : quad) : Prop := exists r0x r0y r0z r0t r1x r1y r1z r1t,
  ok r0x /\ ok r0y /\ ok r0z /\ ok r0t /\ ok r1x /\ ok r1y /\ ok r1z /\ ok r1t /\
  Q0 = qd r0x r0y r0z r0t /\ Q1 = qd r1x r1y r1z r1t /\
  (en = env0 r0x r0y r0z r0t r1x r1y r1z r1t \/
   exists i idx bit tm fm d0x d0y d0z d0t d1x d1y d1z d1t,
     en = env1 r0x r0y r0z r0t r1x r1y r1z r1t i idx bit tm fm d0x d0y d0z d0t d1x d1y d1z d1t).
Definition ladder_body : list stmt :=
  match nth_error (f_body f_P_scalar_mult_normalized) 10 with Some (SFor _ _ _ b) => b | _ => [] end.

Ltac up C := apply (calls_weaken _ (S (S k0))) in C; [rewrite <- from_calls in C|lia].
Lemma qd_select (b : bool) x y z t x1 y1 z1 t1 x2 y2 z2 t2 :
  cong p (den x) (den (if b then x1 else x2)) -> cong p (den y) (den (if b then y1 else y2)) ->
  cong p (den z) (den (if b then z1 else z2)) -> cong p (den t) (den (if b then t1 else t2)) ->
  qd x y z t = if b then qd x1 y1 z1 t1 else qd x2 y2 z2 t2.
Proof. intros A B C D. unfold qd. destruct b; apply quad_eq; apply cong_mod_eq; assumption. Qed.
Lemma iteration en Q0 Q1 j : ready en Q0 Q1 -> 0 <= j < nb ->
  exists en', (forall i, exec_list (fst i) (from (S (S k0)) i) ladder_body (upd "i" (VInt j) en) = Ok en') /\
    (if bitof rhs (nb - 1 - j) then ready en' (quad_double p Q0) (quad_sum p d Q0 Q1) else ready en' (quad_sum p d Q0 Q1) (quad_double p Q1)).
Proof.
  intros (r0x & r0y & r0z & r0t & r1x & r1y & r1z & r1t & A1 & A2 & A3 & A4 & B1 & B2 & B3 & B4 & -> & -> & EN) Hj.
  pose proof (proj2 (k_nbits _ _ _ _ _ _ _ _ _ _ L)) as NB.
  destruct (k_bit _ _ _ _ _ _ _ _ _ _ L rhs (nb - 1 - j) CR ltac:(lia)) as (? & ? & CB). rewrite from_calls in CB.
  set (b := bitof rhs (nb - 1 - j)) in *.
  destruct (k_filled _ _ _ _ _ _ _ _ _ _ L b) as (? & CT). rewrite from_calls in CT.
  destruct (k_filled _ _ _ _ _ _ _ _ _ _ L (negb b)) as (? & CF). rewrite from_calls in CF.
  destruct (add_ref_call _ _ _ _ _ _ _ _ A1 A2 A3 A4 B1 B2 B3 B4) as (sx3 & sy3 & sz3 & st3 & CA & S1 & S2 & S3 & S4 & AQ).
  apply (add_quad p d p0) in AQ. fold (qd r0x r0y r0z r0t) (qd r1x r1y r1z r1t) (qd sx3 sy3 sz3 st3) in AQ.
  apply add_val_call in CA; [|reflexivity]. destruct CA as (CA & _).
  destruct (select_call b _ _ _ _ _ _ _ _ A1 A2 A3 A4 B1 B2 B3 B4) as (xa & ya & za & ta & xb & yb & zb & tb & xr & yr & zr & tr & C1 & C2 & C3 & D1 & D2 & D3 & D4 & J1 & J2 & J3 & J4).
  pose proof (qd_select b _ _ _ _ _ _ _ _ _ _ _ _ J1 J2 J3 J4) as SQ. clear J1 J2 J3 J4.
  destruct (double_call xr yr zr tr D1 D2 D3) as (ex & ey & ez & et & CD & E1 & E2 & E3 & E4 & DQ).
  apply (double_quad p p0 _ _ _ (den tr mod p)) in DQ. fold (qd xr yr zr tr) (qd ex ey ez et) in DQ. rewrite SQ in DQ.
  destruct (select_call (negb b) _ _ _ _ _ _ _ _ S1 S2 S3 S4 E1 E2 E3 E4) as (xa' & ya' & za' & ta' & xb' & yb' & zb' & tb' & xr' & yr' & zr' & tr' & C1' & C2' & C3' & G1 & G2 & G3 & G4 & J1 & J2 & J3 & J4).
  pose proof (qd_select (negb b) _ _ _ _ _ _ _ _ _ _ _ _ J1 J2 J3 J4) as R0Q. clear J1 J2 J3 J4.
  rewrite negb_involutive in C2'.
  destruct (select_call b _ _ _ _ _ _ _ _ S1 S2 S3 S4 E1 E2 E3 E4) as (xa2 & ya2 & za2 & ta2 & xb2 & yb2 & zb2 & tb2 & xr2 & yr2 & zr2 & tr2 & C12 & C22 & C32 & H1 & H2 & H3 & H4 & J1 & J2 & J3 & J4).
  pose proof (qd_select b _ _ _ _ _ _ _ _ _ _ _ _ J1 J2 J3 J4) as R1Q. clear J1 J2 J3 J4.
  up CB. up CT. up CF. up CA. up C1. up C2. up C3. up CD. up C1'. up C2'. up C3'. up C12. up C22. up C32.
  exists (env1 xr' yr' zr' tr' xr2 yr2 zr2 tr2 (VInt j) (VInt (nb - 1 - j)) (VInt (if b then 1 else 0)) (mask b) (mask (negb b))
    xb' yb' zb' tb' xb2 yb2 zb2 tb2).
  split; [|clearbody b; destruct b; cbn [negb] in R0Q; rewrite <- AQ, <- DQ; (exists xr', yr', zr', tr', xr2, yr2, zr2, tr2;
    do 8 (split; [assumption|]); split; [congruence|split; [congruence|right; do 13 eexists; reflexivity]])].
  intros i.
  assert (U1 : uarith (fst i) (nb - 1) = Ok (nb - 1)).
  { unfold uarith. replace (0 <=? nb - 1) with true by (symmetry; apply Z.leb_le; lia). replace (nb - 1 <? 2 ^ 64) with true by (symmetry; apply Z.ltb_lt; lia). reflexivity. }
  assert (U2 : uarith (fst i) (nb - 1 - j) = Ok (nb - 1 - j)).
  { unfold uarith. replace (0 <=? nb - 1 - j) with true by (symmetry; apply Z.leb_le; lia). replace (nb - 1 - j <? 2 ^ 64) with true by (symmetry; apply Z.ltb_lt; lia). reflexivity. }
  assert (NOT : (if (if b then 1 else 0) =? 0 then 1 else 0) = (if negb b then 1 else 0)) by (destruct b; reflexivity).
  unfold ladder_body. cbn [nth_error f_body f_P_scalar_mult_normalized].
  destruct EN as [->|(? & ? & ? & ? & ? & ? & ? & ? & ? & ? & ? & ? & ? & ->)]; unfold env1, env0; cbn [app];
  (do 1 nxt; unfold as_int; one; rewrite U1; one; rewrite U2; one;
   nxt; rewrite CB; one; nxt; rewrite CT; one; nxt; unfold as_int; one; rewrite NOT, CF; one; do 8 nxt;
   nxt; rewrite CA; one; do 4 nxt;
   nxt; rewrite C1; one; nxt; rewrite C2; one; nxt; rewrite C3; one; nxt; rewrite CD; one; do 4 nxt;
   nxt; rewrite C1'; one; nxt; rewrite C2'; one; nxt; rewrite C3'; one;
   nxt; rewrite C12; one; nxt; rewrite C22; one; nxt; rewrite C32; one; reflexivity).
Qed.

Lemma iterations n : forall j en Q0 Q1, ready en Q0 Q1 -> 0 <= j -> j + Z.of_nat n = nb ->
  exists en' Q, (forall i, (fix loop (n : nat) (j : Z) (en : env) : res env :=
      match n with O => Ok en | S k => bind (exec_list (fst i) (from (S (S k0)) i) ladder_body (upd "i" (VInt j) en)) (loop k (j + 1)) end) n j en = Ok en') /\
    ready en' (quad_ladder p d (bitof rhs) n Q0 Q1) Q.
Proof.
  induction n as [|n IH]; intros j en Q0 Q1 R H1 H2; [exists en, Q1; auto|].
  destruct (iteration en Q0 Q1 j R ltac:(lia)) as (en1 & E1 & R1). replace (nb - 1 - j) with (Z.of_nat n) in R1 by lia. cbn [quad_ladder].
  destruct (bitof rhs (Z.of_nat n));
    (destruct (IH (j + 1) en1 _ _ R1 ltac:(lia) ltac:(lia)) as (en2 & Q & E2 & R2);
     exists en2, Q; split; [|exact R2]; intros i; rewrite E1; cbn [bind]; apply E2).
Qed.
End Ladder.

Lemma exec_for md K x lo hi b en a c : eval md lo en = Ok (VInt a) -> eval md hi en = Ok (VInt c) ->
  exec md K (SFor x lo hi b) en = (fix loop (n : nat) (j : Z) (en : env) : res env :=
      match n with O => Ok en | S k => bind (exec_list md K b (upd x (VInt j) en)) (loop k (j + 1)) end) (Z.to_nat (c - a)) a en.
Proof.
  intros E1 E2. cbn [exec]. rewrite E1, E2. cbn [bind as_int]. generalize (Z.to_nat (c - a)) as n. intros n. revert a en E1 E2.
  assert (G : forall l en, (fix go (l : list stmt) (en : env) : res env :=
      match l with [] => Ok en | s :: t => bind (exec md K s en) (go t) end) l en = exec_list md K l en).
  { induction l as [|s l IH]; intros en; [reflexivity|]. cbn [exec_list]. destruct (exec md K s en); cbn [bind]; auto. }
  intros a en _ _. revert a en. induction n as [|n IH]; intros a en; [reflexivity|].
  rewrite G. destruct (exec_list md K b (upd x (VInt a) en)); cbn [bind]; auto.
Qed.

Lemma ladder_call sx sy sz st rhs : ok sx -> ok sy -> ok sz -> ok st -> canon rhs ->
  exists X Y Z T, calls (S (S (S k0))) "P::scalar_mult_normalized" [sx; sy; sz; st; rhs] ([], [X; Y; Z; T; rhs]) /\ ok X /\ ok Y /\ ok Z /\ ok T /\
    qd X Y Z T = quad_ladder p d (bitof rhs) (Z.to_nat nb) (0 mod p, 1 mod p, 1 mod p, 1 mod p) (qd sx sy sz st).
Proof.
  intros A1 A2 A3 A4 CR.
  destruct zero_call as (zx & zy & zz & zt & CZ & Z1 & Z2 & Z3 & Z4 & J1 & J2 & J3 & J4).
  assert (ZQ : qd zx zy zz zt = (0 mod p, 1 mod p, 1 mod p, 1 mod p)) by (unfold qd; apply quad_eq; apply cong_mod_eq; assumption).
  destruct (k_nbits _ _ _ _ _ _ _ _ _ _ L) as (CN & NB). rewrite from_calls in CN.
  apply (calls_weaken _ (S (S k0))) in CZ; [rewrite <- from_calls in CZ|lia].
  apply (calls_weaken _ (S (S k0))) in CN; [rewrite <- from_calls in CN|lia].
  destruct (iterations sx sy sz st rhs zx zy zz zt CR (Z.to_nat (nb - 0)) 0 (env0 sx sy sz st rhs zx zy zz zt zx zy zz zt sx sy sz st)
    (qd zx zy zz zt) (qd sx sy sz st)) as (en' & Q & EL & R);
    [exists zx, zy, zz, zt, sx, sy, sz, st; do 8 (split; [assumption|]); split; [reflexivity|split; [reflexivity|left; reflexivity]]|lia|lia|].
  destruct R as (r0x & r0y & r0z & r0t & r1x & r1y & r1z & r1t & B1 & B2 & B3 & B4 & _ & _ & _ & _ & EQ & _ & EN).
  rewrite Z.sub_0_r, ZQ in EQ. exists r0x, r0y, r0z, r0t. split; [|do 4 (split; [assumption|]); symmetry; exact EQ].
  apply (enter (S (S k0)) _ f_P_scalar_mult_normalized); [reflexivity|]. intros i. specialize (EL i).
  unfold run_func, f_P_scalar_mult_normalized. cbn [f_params f_body f_rets List.length Nat.eqb combine].
  rewrite exec_cons. one. rewrite CZ. one. do 8 (rewrite exec_cons; one). rewrite exec_cons. one. rewrite CN. one.
  rewrite exec_cons, (exec_for _ _ _ _ _ _ _ 0 nb) by reflexivity.
  change (fst i) with (fst i) in EL. unfold ladder_body in EL. cbn [nth_error f_body f_P_scalar_mult_normalized] in EL. unfold env0 in EL at 1. rewrite EL. cbn [bind].
  destruct EN as [->|(? & ? & ? & ? & ? & ? & ? & ? & ? & ? & ? & ? & ? & ->)]; unfold env1, env0; cbn [app]; fin; reflexivity.
Qed.
Lemma scalar_mult_call sx sy sz st rhs : ok sx -> ok sy -> ok sz -> ok st -> wide rhs ->
  exists X Y Z T r, calls (S (S (S (S k0)))) "P::scalar_mult" [sx; sy; sz; st; rhs] ([], [X; Y; Z; T; r]) /\
    calls k0 "F::normalize" [rhs] ([], [r]) /\ ok X /\ ok Y /\ ok Z /\ ok T /\
    qd X Y Z T = quad_ladder p d (bitof r) (Z.to_nat nb) (0 mod p, 1 mod p, 1 mod p, 1 mod p) (qd sx sy sz st).
Proof.
  intros A1 A2 A3 A4 W. destruct (k_normalize _ _ _ _ _ _ _ _ _ _ L rhs W) as (r & CR & Cr).
  destruct (ladder_call sx sy sz st r A1 A2 A3 A4 Cr) as (X & Y & Z & T' & C & O). exists X, Y, Z, T', r. split; [|split; [now apply from_calls|exact O]].
  rewrite from_calls in CR. apply (calls_weaken _ (S (S (S k0)))) in CR; [rewrite <- from_calls in CR|lia]. rewrite <- from_calls in C.
  apply (enter (S (S (S k0))) _ f_P_scalar_mult); [reflexivity|]. start f_P_scalar_mult. rewrite CR. fin. rewrite C. fin. reflexivity.
Qed.
End Curve.
