(** Induction over statements, and the loop of [exec] by name. *)
From Coq Require Import ZArith List String Bool.
From Verif Require Import Lang.
Import ListNotations.
Local Open Scope Z_scope.

Lemma bind_ext {A B} (m : res A) (f g : A -> res B) : (forall a, f a = g a) -> bind m f = bind m g.
Proof. intros H. destruct m; cbn; auto. Qed.
Section Stmt_ind.
  Variable Q : stmt -> Prop.
  Hypothesis HL : forall x e, Q (SLet x e).
  Hypothesis HS : forall a i e, Q (SSet a i e).
  Hypothesis HC : forall ds f args, Q (SCall ds f args).
  Hypothesis HF : forall x lo hi body, Forall Q body -> Q (SFor x lo hi body).
  Hypothesis HG : forall x r lo hi, Q (SGenRange x r lo hi).
  Hypothesis HP : forall f s, Q (SPushStr f s).
  Hypothesis HH : forall f u p b e, Q (SPushHex f u p b e).
  Fixpoint stmt_rect' (s : stmt) : Q s :=
    match s with
    | SLet x e => HL x e | SSet a i e => HS a i e | SCall ds f args => HC ds f args
    | SFor x lo hi body => HF x lo hi body ((fix go l : Forall Q l := match l with [] => Forall_nil Q | s :: t => Forall_cons s (stmt_rect' s) (go t) end) body)
    | SGenRange x r lo hi => HG x r lo hi | SPushStr f s => HP f s | SPushHex f u p b e => HH f u p b e
    end.
End Stmt_ind.
(* the loop of [exec], named *)
Fixpoint iter (go : env -> res env) (x : string) (n : nat) (i : Z) (en : env) : res env :=
  match n with O => Ok en | S k => bind (go (upd x (VInt i) en)) (iter go x k (i + 1)) end.
Lemma exec_for md c x lo hi body en : exec md c (SFor x lo hi body) en =
  bind (bind (eval md lo en) as_int) (fun a => bind (bind (eval md hi en) as_int) (fun b => iter (exec_list md c body) x (Z.to_nat (b - a)) a en)).
Proof.
  cbn [exec]. apply bind_ext. intros a. apply bind_ext. intros b.
  assert (G : forall l e, (fix go (l : list stmt) (en : env) : res env := match l with [] => Ok en | s :: t => bind (exec md c s en) (go t) end) l e = exec_list md c l e).
  { induction l as [|s t IH]; intros e; [reflexivity|]. cbn [exec_list]. apply bind_ext. exact IH. }
  generalize (Z.to_nat (b - a)). intros n. revert en. generalize a. revert n. induction n as [|n IH]; intros i en; [reflexivity|]. cbn [iter]. rewrite G. apply bind_ext. intros e. apply IH.
Qed.
