(** The operator forms, and the irrelevance of the call-depth bound. *)
From Coq Require Import ZArith List String Lia Bool.
From Verif Require Import Lang Poly Kernel Fields Kfacts Ops Words Codec Normalize.
From Verif Require Src_e221_3.
Import ListNotations.
Local Open Scope string_scope.
Local Open Scope Z_scope.

(** ** Static call depth *)
Lemma lookup_in {A} (f : string) (t : list (string * A)) g : lookup f t = Some g -> In f (map fst t).
Proof.
  induction t as [|[y v] t IH]; cbn [lookup map fst]; [discriminate|].
  destruct (String.eqb_spec f y); [subst; left; reflexivity|right; auto].
Qed.
Lemma depth_checked : forallb (fun F => forallb (depth_le (fl_tbl F) 8) (map fst (fl_tbl F))) all_fields = true.
Proof. vm_cast_no_check (eq_refl true). Qed.
Lemma depth8 F f : In F all_fields -> depth_le (fl_tbl F) 8 f = true.
Proof.
  intros H. destruct (lookup f (fl_tbl F)) as [g|] eqn:E.
  - pose proof (all_chk _ depth_checked F H) as K. cbn beta in K. rewrite forallb_forall in K.
    apply K. eapply lookup_in; eauto.
  - cbn [depth_le]. rewrite E. reflexivity.
Qed.
Lemma fuel_ok F md f k vs : In F all_fields -> (8 <= k)%nat ->
  call md no_base (fl_tbl F) k f vs = rust_call md (fl_tbl F) f vs.
Proof. intros H Hk. unfold rust_call. apply (depth_fuel md no_base (fl_tbl F) 8); auto. apply depth8; auto. lia. Qed.

Lemma gets_len xs en os : gets xs en = Ok os -> List.length os = List.length xs.
Proof.
  revert os. induction xs as [|x xs IH]; intros os H; cbn [gets] in H.
  - injection H as <-. reflexivity.
  - destruct (get x en); try discriminate. cbn [bind] in H. destruct (gets xs en); try discriminate.
    cbn [bind] in H. injection H as <-. simpl. f_equal. auto.
Qed.
Lemma evals_len md es en vs : evals md es en = Ok vs -> List.length vs = List.length es.
Proof.
  revert vs. induction es as [|e es IH]; intros vs H; cbn [evals] in H.
  - injection H as <-. reflexivity.
  - destruct (eval md e en); try discriminate. cbn [bind] in H. destruct (evals md es en); try discriminate.
    cbn [bind] in H. injection H as <-. simpl. f_equal. auto.
Qed.
Lemma run_func_len md cl g vs rs os : run_func md cl g vs = Ok (rs, os) ->
  List.length rs = List.length (f_rets g) /\ List.length os = List.length vs.
Proof.
  unfold run_func. destruct (Nat.eqb_spec (List.length (f_params g)) (List.length vs)) as [E|]; [|discriminate].
  destruct (exec_list md cl (f_body g) (combine (f_params g) vs)) as [en| |]; try discriminate. cbn [bind].
  destruct (evals md (f_rets g) en) as [r| |] eqn:Er; try discriminate. cbn [bind].
  destruct (gets (f_params g) en) as [o| |] eqn:Eo; try discriminate. cbn [bind]. intros H. injection H as <- <-.
  apply evals_len in Er. apply gets_len in Eo. split; congruence.
Qed.
Lemma call_len F md f vs rs os : rust_call md (fl_tbl F) f vs = Ok (rs, os) -> List.length os = List.length vs.
Proof.
  unfold rust_call. cbn [call]. destruct (lookup f (fl_tbl F)) as [g|]; [|discriminate].
  intros H. apply run_func_len in H. tauto.
Qed.
Lemma rust_call_step F md f g vs : In F all_fields -> lookup f (fl_tbl F) = Some g ->
  rust_call md (fl_tbl F) f vs = run_func md (rust_call md (fl_tbl F)) g vs.
Proof.
  intros H L. unfold rust_call at 1. change 16%nat with (S 15). assert (8 <= 15)%nat as K by lia. revert K.
  generalize 15%nat as k. intros k K. cbn [call]. rewrite L. apply run_func_callees.
  intros f' _ vs'. apply fuel_ok; auto.
Qed.
Section Wrap.
  Variables (F : fld) (md : mode).
  Hypothesis HF : In F all_fields.
  (* fn(self, x) { base(self, c(x)); } *)
  Definition w_assign (f base : string) (c : expr -> expr) : Prop :=
    lookup f (fl_tbl F) = Some (mkfunc ["self"; "rhs"] [SCall [] base [AMut "self"; AVal (c (EVar "rhs"))]] []).
  (* fn(self, x) { let mut out = self; base(out, x); out } *)
  Definition w_clone (f base p : string) : Prop :=
    lookup f (fl_tbl F) = Some (mkfunc ["self"; p] [SLet "out" (EVar "self"); SCall [] base [AMut "out"; AVal (EVar p)]] [EVar "out"]).
  (* fn(self, x) { base(self, c(x)) } *)
  Definition w_ret (f base : string) (c : expr -> expr) : Prop :=
    lookup f (fl_tbl F) = Some (mkfunc ["self"; "a"] [SCall ["%1"] base [AVal (EVar "self"); AVal (c (EVar "a"))]] [EVar "%1"]).
  (* fn(self, x) { base(x, c(self)) } *)
  Definition w_swap (f base : string) (c : expr -> expr) : Prop :=
    lookup f (fl_tbl F) = Some (mkfunc ["self"; "a"] [SCall ["%1"] base [AVal (EVar "a"); AVal (c (EVar "self"))]] [EVar "%1"]).

  Definition same_val (c : expr -> expr) (b : val) : Prop := forall x en, lookup x en = Some b -> eval md (c (EVar x)) en = Ok b.
  Lemma id_same b : same_val (fun e => e) b.
  Proof. intros x en H. cbn [eval]. unfold get. rewrite H. reflexivity. Qed.
  Lemma i32_same b : is_i32 b -> same_val (ECast I32) (VInt b).
  Proof.
    intros H x en L. cbn [eval]. unfold get. rewrite L. cbn [bind as_int cast]. rewrite wrap_small; [reflexivity|lia|].
    unfold is_i32 in H. change (32 - 1) with 31. lia.
  Qed.

  Ltac crush base a b :=
    destruct (rust_call md (fl_tbl F) base [a; b]) as [[rs os]| |] eqn:E; try reflexivity;
    apply call_len in E; destruct os as [|v [|w [|]]]; try discriminate E; cbn [List.length] in *.

  Lemma assign_eq f base c a b : w_assign f base c -> same_val c b -> assigned md F f [a; b] = assigned md F base [a; b].
  Proof.
    intros L C. unfold assigned. rewrite (rust_call_step F md f _ _ HF L).
    unfold run_func. cbn [f_params f_body f_rets List.length Nat.eqb combine exec_list exec eval_args].
    rewrite (C "rhs") by reflexivity.
    cbv beta iota zeta delta [get lookup String.eqb Ascii.eqb Bool.eqb bind].
    crush base a b. reflexivity.
  Qed.
  Lemma clone_eq f base p a b : w_clone f base p -> p = "a" \/ p = "rhs" \/ p = "b" -> returned md F f [a; b] = assigned md F base [a; b].
  Proof.
    intros L C. unfold returned, assigned. rewrite (rust_call_step F md f _ _ HF L).
    destruct C as [->|[->| ->]]; evm; crush base a b; reflexivity.
  Qed.
  Lemma rets_some base g args rs os : lookup base (fl_tbl F) = Some g -> f_rets g <> [] ->
    rust_call md (fl_tbl F) base args = Ok (rs, os) -> rs <> [].
  Proof.
    intros L N H. rewrite (rust_call_step F md base g _ HF L) in H. apply run_func_len in H as [H _].
    destruct rs; [|discriminate]. destruct (f_rets g); [congruence|discriminate].
  Qed.
  Lemma ret_eq f base c g a b : w_ret f base c -> same_val c b -> lookup base (fl_tbl F) = Some g -> f_rets g <> [] ->
    returned md F f [a; b] = returned md F base [a; b].
  Proof.
    intros L C Lb N. unfold returned. rewrite (rust_call_step F md f _ _ HF L).
    unfold run_func. cbn [f_params f_body f_rets List.length Nat.eqb combine exec_list exec eval_args].
    rewrite (C "a") by reflexivity.
    cbv beta iota zeta delta [get lookup eval String.eqb Ascii.eqb Bool.eqb bind].
    destruct (rust_call md (fl_tbl F) base [a; b]) as [[rs os]| |] eqn:E; try reflexivity.
    pose proof (rets_some base g _ rs os Lb N E) as Ns. destruct rs as [|r rs]; [congruence|].
    apply call_len in E; destruct os as [|v [|w [|]]]; try discriminate E. evm. destruct rs; reflexivity.
  Qed.
  Lemma swap_eq f base c g a b : w_swap f base c -> same_val c b -> lookup base (fl_tbl F) = Some g -> f_rets g <> [] ->
    returned md F f [b; a] = returned md F base [a; b].
  Proof.
    intros L C Lb N. unfold returned. rewrite (rust_call_step F md f _ _ HF L).
    unfold run_func. cbn [f_params f_body f_rets List.length Nat.eqb combine exec_list exec eval_args].
    rewrite (C "self") by reflexivity.
    cbv beta iota zeta delta [get lookup eval String.eqb Ascii.eqb Bool.eqb bind].
    destruct (rust_call md (fl_tbl F) base [a; b]) as [[rs os]| |] eqn:E; try reflexivity.
    pose proof (rets_some base g _ rs os Lb N E) as Ns. destruct rs as [|r rs]; [congruence|].
    apply call_len in E; destruct os as [|v [|w [|]]]; try discriminate E. evm. destruct rs; reflexivity.
  Qed.
End Wrap.

(** ** The forms with two field operands *)
Lemma field_forms F md op a b : In F all_fields -> In op ["add"; "sub"; "mul"; "div"] ->
  assigned md F ("F::" ++ op ++ "_assign(F)") [a; b] = assigned md F ("F::" ++ op ++ "_assign(&F)") [a; b] /\
  returned md F ("(&F)::" ++ op ++ "(&F)") [a; b] = assigned md F ("F::" ++ op ++ "_assign(&F)") [a; b] /\
  returned md F ("F::" ++ op ++ "(F)") [a; b] = assigned md F ("F::" ++ op ++ "_assign(&F)") [a; b].
Proof.
  intros H Ho.
  assert (R : returned md F ("(&F)::" ++ op ++ "(&F)") [a; b] = assigned md F ("F::" ++ op ++ "_assign(&F)") [a; b]).
  { apply (clone_eq F md H _ _ "a"); [|auto]. unfold w_clone.
    destruct Ho as [<-|[<-|[<-|[<-|[]]]]]; cbn [append]; by_field H. }
  split; [|split; [exact R|]].
  - apply (assign_eq F md H _ _ (fun e => e)); [|apply id_same]. unfold w_assign.
    destruct Ho as [<-|[<-|[<-|[<-|[]]]]]; cbn [append]; by_field H.
  - rewrite <- R. eapply (ret_eq F md H _ _ (fun e => e)); [|apply id_same| |].
    + unfold w_ret. destruct Ho as [<-|[<-|[<-|[<-|[]]]]]; cbn [append]; by_field H.
    + instantiate (1 := mkfunc ["self"; "a"] [SLet "out" (EVar "self");
        SCall [] ("F::" ++ op ++ "_assign(&F)") [AMut "out"; AVal (EVar "a")]] [EVar "out"]).
      destruct Ho as [<-|[<-|[<-|[<-|[]]]]]; cbn [append]; by_field H.
    + discriminate.
Qed.

(** ** The forms with a small integer *)
Definition int_types : list string := ["i32"; "i16"; "i8"].
Definition castof (t : string) : expr -> expr := if String.eqb t "i32" then fun e => e else ECast I32.
Lemma castof_same md t b : In t int_types -> is_i32 b -> same_val md (castof t) (VInt b).
Proof.
  intros Ht Hb. unfold castof. destruct (String.eqb t "i32"); [apply id_same|apply i32_same; auto].
Qed.
Definition pname (op : string) : string := if String.eqb op "mul" then "b" else "rhs".
Definition b_small (op : string) : func :=
  mkfunc ["self"; pname op] [SLet "out" (EVar "self"); SCall [] ("F::small_" ++ op ++ "_assign") [AMut "out"; AVal (EVar (pname op))]] [EVar "out"].
Definition b_refint (op t : string) : func :=
  mkfunc ["self"; "a"] [SCall ["%1"] ("F::small_" ++ op) [AVal (EVar "self"); AVal (castof t (EVar "a"))]] [EVar "%1"].
Ltac two H Ho Ht := destruct Ho as [<-|[<-|[<-|[]]]]; destruct Ht as [<-|[<-|[<-|[]]]]; cbn [append]; by_field H.
Lemma int_forms F md op t a b : In F all_fields -> In op ["add"; "sub"; "mul"] -> In t int_types -> is_i32 b ->
  let base := assigned md F ("F::small_" ++ op ++ "_assign") [a; VInt b] in
  returned md F ("F::small_" ++ op) [a; VInt b] = base /\
  assigned md F ("F::" ++ op ++ "_assign(" ++ t ++ ")") [a; VInt b] = base /\
  returned md F ("(&F)::" ++ op ++ "(" ++ t ++ ")") [a; VInt b] = base /\
  returned md F ("F::" ++ op ++ "(" ++ t ++ ")") [a; VInt b] = base.
Proof.
  intros H Ho Ht Hb base. subst base.
  assert (L1 : lookup ("F::small_" ++ op) (fl_tbl F) = Some (b_small op)).
  { destruct Ho as [<-|[<-|[<-|[]]]]; cbn [append]; by_field H. }
  assert (R1 : returned md F ("F::small_" ++ op) [a; VInt b] = assigned md F ("F::small_" ++ op ++ "_assign") [a; VInt b]).
  { apply (clone_eq F md H _ _ (pname op)); [exact L1|]. unfold pname. destruct (String.eqb op "mul"); auto. }
  assert (L2 : lookup ("(&F)::" ++ op ++ "(" ++ t ++ ")") (fl_tbl F) = Some (b_refint op t)) by two H Ho Ht.
  assert (R2 : returned md F ("(&F)::" ++ op ++ "(" ++ t ++ ")") [a; VInt b] = assigned md F ("F::small_" ++ op ++ "_assign") [a; VInt b]).
  { rewrite <- R1. eapply (ret_eq F md H _ _ (castof t)); [exact L2|apply castof_same; auto|exact L1|discriminate]. }
  split; [exact R1|]. split; [|split; [exact R2|]].
  - apply (assign_eq F md H _ _ (castof t)); [|apply castof_same; auto]. unfold w_assign. two H Ho Ht.
  - rewrite <- R2. eapply (ret_eq F md H _ _ (fun e => e)); [|apply id_same|exact L2|discriminate]. unfold w_ret. two H Ho Ht.
Qed.
Lemma int_left_forms F md op t a b : In F all_fields -> In op ["add"; "mul"] -> In t int_types -> is_i32 b ->
  returned md F (t ++ "::" ++ op ++ "(&F)") [VInt b; a] = assigned md F ("F::small_" ++ op ++ "_assign") [a; VInt b].
Proof.
  intros H Ho Ht Hb.
  assert (Ho' : In op ["add"; "sub"; "mul"]) by (simpl in *; tauto).
  destruct (int_forms F md op t a b H Ho' Ht Hb) as (<- & _).
  apply (swap_eq F md H _ _ (castof t) (b_small op)); [|apply castof_same; auto| |discriminate].
  - unfold w_swap. destruct Ho as [<-|[<-|[]]]; destruct Ht as [<-|[<-|[<-|[]]]]; cbn [append]; by_field H.
  - destruct Ho as [<-|[<-|[]]]; cbn [append]; by_field H.
Qed.
(** ** squared and inverted *)
Lemma unary_forms F md op p a : In F all_fields -> In (op, p) [("squared", "square"); ("inverted", "invert")] ->
  returned md F ("F::" ++ op) [a] = assigned md F ("F::" ++ p) [a].
Proof.
  intros H Ho. unfold returned, assigned.
  assert (L : lookup ("F::" ++ op) (fl_tbl F) = Some (mkfunc ["self"] [SLet "out" (EVar "self"); SCall [] ("F::" ++ p) [AMut "out"]] [EVar "out"])).
  { destruct Ho as [E|[E|[]]]; injection E as <- <-; cbn [append]; by_field H. }
  rewrite (rust_call_step F md _ _ _ H L). evm.
  destruct (rust_call md (fl_tbl F) ("F::" ++ p) [a]) as [[rs os]| |] eqn:E; try reflexivity.
  apply call_len in E. destruct os as [|v [|]]; try discriminate E. reflexivity.
Qed.
