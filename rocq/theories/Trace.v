(** Execution traces do not depend on secrets: a taint checker, its soundness,
    and its verdict on the library. *)
From Coq Require Import ZArith List String Bool Lia.
From Verif Require Import Lang Fields EdwardsSpec CurveSpec Curves TraceSpec.
From Verif Require Export Stmts.
Import ListNotations.
Local Open Scope string_scope.
Local Open Scope Z_scope.
Local Open Scope list_scope.

(** ** Erasure: the instrumented evaluator computes what Lang.v says *)
Lemma snd_obind {A B} (m : out A) (f : A -> out B) : snd (obind m f) = bind (snd m) (fun a => snd (f a)).
Proof. unfold obind. destruct (snd m); reflexivity. Qed.
Lemma bind_id {A} (m : res A) : bind m (fun a => Ok a) = m. Proof. destruct m; reflexivity. Qed.
Lemma oint_erase m r : snd m = r -> snd (oint m) = bind r as_int.
Proof. intros <-. unfold oint. now rewrite snd_obind. Qed.
Lemma oarr_erase m r : snd m = r -> snd (oarr m) = bind r as_arr.
Proof. intros <-. unfold oarr. now rewrite snd_obind. Qed.
Lemma teval_erase md e en : snd (teval md e en) = eval md e en.
Proof.
  induction e; cbn [teval eval]; try reflexivity;
    rewrite ?snd_obind, ?(oint_erase _ _ IHe), ?(oint_erase _ _ IHe1), ?(oarr_erase _ _ IHe1);
    try (apply bind_ext; intros; rewrite ?snd_obind, ?(oint_erase _ _ IHe2); try (apply bind_ext; intros; rewrite ?snd_obind); reflexivity).
Qed.
Lemma tevals_erase md es en : snd (tevals md es en) = evals md es en.
Proof.
  induction es as [|e t IH]; [reflexivity|]. cbn [tevals evals]. rewrite snd_obind, teval_erase. apply bind_ext. intros v.
  rewrite snd_obind, IH. reflexivity.
Qed.
Lemma teval_args_erase md l en : snd (teval_args md l en) = eval_args md l en.
Proof.
  induction l as [|a t IH]; [reflexivity|]. cbn [teval_args eval_args]. rewrite snd_obind.
  destruct a; [rewrite teval_erase|cbn [lift snd]]; apply bind_ext; intros v; rewrite snd_obind, IH; reflexivity.
Qed.
(* the loop of [texec], named *)
Fixpoint titer (go : env -> out env) (x : string) (n : nat) (i : Z) (en : env) : out env :=
  match n with O => lift (Ok en) | S k => obind (tick VIter (Ok tt)) (fun _ => obind (go (upd x (VInt i) en)) (titer go x k (i + 1))) end.
Lemma obind_ext {A B} (m : out A) (f g : A -> out B) : (forall a, f a = g a) -> obind m f = obind m g.
Proof. intros H. unfold obind. destruct (snd m); [rewrite H|..]; reflexivity. Qed.
Lemma texec_for md c x lo hi body en : texec md c (SFor x lo hi body) en =
  obind (oint (teval md lo en)) (fun a => obind (oint (teval md hi en)) (fun b => obind (tick (VFor (Z.to_nat (b - a))) (Ok tt)) (fun _ => titer (texec_list md c body) x (Z.to_nat (b - a)) a en))).
Proof.
  cbn [texec]. apply obind_ext. intros a. apply obind_ext. intros b. apply obind_ext. intros _.
  assert (G : forall l e, (fix go (l : list stmt) (en : env) : out env := match l with [] => lift (Ok en) | s :: t => obind (texec md c s en) (go t) end) l e = texec_list md c l e).
  { induction l as [|s t IH]; intros e; [reflexivity|]. cbn [texec_list]. apply obind_ext. exact IH. }
  generalize (Z.to_nat (b - a)). intros n. revert en. generalize a. revert n. induction n as [|n IH]; intros i en; [reflexivity|]. cbn [titer]. apply obind_ext. intros _. rewrite G. apply obind_ext. intros e. apply IH.
Qed.
Section Erase.
  Variables (md : mode) (c : string -> list val -> res (list val * list val)) (tc : string -> list val -> out (list val * list val)).
  Hypothesis H : forall f vs, snd (tc f vs) = c f vs.
  Lemma texec_erase s : forall en, snd (texec md tc s en) = exec md c s en.
  Proof.
    induction s using stmt_rect'; intros en.
    - cbn [texec exec]. rewrite snd_obind, teval_erase. reflexivity.
    - cbn [texec exec]. rewrite snd_obind, (oint_erase _ _ (teval_erase md e en)). apply bind_ext. intros v.
      rewrite snd_obind, (oint_erase _ _ (teval_erase md i en)). apply bind_ext. intros j. rewrite snd_obind, (oarr_erase _ (get a en)); reflexivity.
    - cbn [texec exec]. rewrite snd_obind, teval_args_erase. apply bind_ext. intros vs. rewrite snd_obind. cbn [tick snd bind]. rewrite snd_obind, H. apply bind_ext. intros ro.
      rewrite snd_obind. cbn [tick snd bind]. rewrite snd_obind. reflexivity.
    - rewrite texec_for, exec_for. rewrite snd_obind, (oint_erase _ _ (teval_erase md lo en)). apply bind_ext. intros a.
      rewrite snd_obind, (oint_erase _ _ (teval_erase md hi en)). apply bind_ext. intros b. rewrite snd_obind. cbn [tick snd bind].
      assert (G : forall e, snd (texec_list md tc body e) = exec_list md c body e).
      { induction H0 as [|s t Hs Ht IH]; intros e; [reflexivity|]. cbn [texec_list exec_list]. rewrite snd_obind, Hs. apply bind_ext. exact IH. }
      generalize (Z.to_nat (b - a)). intros n. revert en. generalize a. revert n. induction n as [|n IH]; intros i en; [reflexivity|].
      cbn [iter titer]. rewrite snd_obind. cbn [tick snd bind]. rewrite snd_obind, G. apply bind_ext. intros e. apply IH.
    - cbn [texec exec]. rewrite snd_obind, (oint_erase _ _ (teval_erase md lo en)). apply bind_ext. intros a.
      rewrite snd_obind, (oint_erase _ _ (teval_erase md hi en)). apply bind_ext. intros b. rewrite snd_obind, (oarr_erase _ (get r en)); reflexivity.
    - cbn [texec exec]. rewrite snd_obind, (oarr_erase _ (get f en)); reflexivity.
    - cbn [texec exec]. rewrite snd_obind, (oint_erase _ _ (teval_erase md e en)). apply bind_ext. intros z. rewrite snd_obind, (oarr_erase _ (get f en)); reflexivity.
  Qed.
  Lemma texec_list_erase l : forall en, snd (texec_list md tc l en) = exec_list md c l en.
  Proof. induction l as [|s t IH]; intros en; [reflexivity|]. cbn [texec_list exec_list]. rewrite snd_obind, texec_erase. apply bind_ext. exact IH. Qed.
  Lemma trun_erase fn vs : snd (trun_func md tc fn vs) = run_func md c fn vs.
  Proof.
    unfold trun_func, run_func. destruct (Nat.eqb _ _); [|reflexivity]. rewrite snd_obind, texec_list_erase. apply bind_ext. intros en.
    rewrite snd_obind, tevals_erase. apply bind_ext. intros rs. rewrite snd_obind. reflexivity.
  Qed.
End Erase.
Lemma tcall_erase md tbl fuel : forall f vs, snd (tcall md tbl fuel f vs) = call md no_base tbl fuel f vs.
Proof.
  induction fuel as [|k IH]; intros f vs; cbn [tcall call]; destruct (lookup f tbl); try reflexivity. apply trun_erase. exact IH.
Qed.
Lemma erasure md tbl f vs : snd (traced md tbl f vs) = rust_call md tbl f vs.
Proof. apply tcall_erase. Qed.

(** ** Relating two runs *)
Lemma starts_refl {A} (t : list A) : starts t t. Proof. exists []. now rewrite app_nil_r. Qed.
Lemma starts_app {A} (t u v : list A) : starts t u -> starts t (u ++ v).
Proof. intros (r & ->). exists (r ++ v). now rewrite app_assoc. Qed.
Lemma starts_cat {A} (t u v : list A) : starts u v -> starts (t ++ u) (t ++ v).
Proof. intros (r & ->). exists r. now rewrite app_assoc. Qed.

Section Rel.
Variable md : mode.
Definition ends {A} (R : A -> A -> Prop) (r r' : res A) : Prop :=
  match r, r' with Ok a, Ok a' => R a a' | Panic, Panic => True | Stuck, Stuck => True | _, _ => False end.
(* the same observations and the same kind of end; or, with overflow checks on,
   one of them panics, having shown an initial part of the other's observations *)
Definition orel {A} (R : A -> A -> Prop) (m m' : out A) : Prop :=
  (fst m = fst m' /\ ends R (snd m) (snd m')) \/
  (md = Debug /\ snd m = Panic /\ starts (fst m) (fst m')) \/
  (md = Debug /\ snd m' = Panic /\ starts (fst m') (fst m)).
Lemma fst_obind_starts {A B} (m : out A) (f : A -> out B) : starts (fst m) (fst (obind m f)).
Proof. unfold obind. destruct (snd m); cbn [fst]; [exists (fst (f a)); reflexivity|apply starts_refl|apply starts_refl]. Qed.
Lemma orel_bind {A B} (R : A -> A -> Prop) (S : B -> B -> Prop) m m' (f f' : A -> out B) :
  orel R m m' -> (forall a a', R a a' -> orel S (f a) (f' a')) -> orel S (obind m f) (obind m' f').
Proof.
  intros [(T & E)|[(D & P & T)|(D & P & T)]] K.
  - unfold obind. destruct (snd m) as [a| |], (snd m') as [a'| |]; cbn [ends] in E; try contradiction; try (left; cbn [fst snd]; auto; fail).
    destruct (K a a' E) as [(T2 & E2)|[(D & P & T2)|(D & P & T2)]].
    + left. cbn [fst snd]. rewrite T, T2. auto.
    + right. left. cbn [fst snd]. rewrite T. split; auto. split; auto. now apply starts_cat.
    + right. right. cbn [fst snd]. rewrite T. split; auto. split; auto. now apply starts_cat.
  - right. left. split; auto. assert (E : obind m f = (fst m, Panic)) by (unfold obind; now rewrite P). rewrite E. cbn [fst snd]. split; auto.
    destruct T as (r & T). pose proof (fst_obind_starts m' f') as (r' & Q). rewrite Q, T. exists (r ++ r'). now rewrite app_assoc.
  - right. right. split; auto. assert (E : obind m' f' = (fst m', Panic)) by (unfold obind; now rewrite P). rewrite E. cbn [fst snd]. split; auto.
    destruct T as (r & T). pose proof (fst_obind_starts m f) as (r' & Q). rewrite Q, T. exists (r ++ r'). now rewrite app_assoc.
Qed.
Lemma orel_lift {A} (R : A -> A -> Prop) r r' : ends R r r' -> orel R (lift r) (lift r').
Proof. intros H. left. auto. Qed.
Lemma orel_tick {A} (R : A -> A -> Prop) e r r' : ends R r r' -> orel R (tick e r) (tick e r').
Proof. intros H. left. auto. Qed.
Lemma orel_same {A} (R : A -> A -> Prop) m : (forall a, R a a) -> orel R m m.
Proof. intros H. left. split; auto. destruct (snd m); cbn; auto. Qed.

(** ** Secrets: [true] means secret *)
Definition vrel (s : bool) (v v' : val) : Prop := if s then same_shape v v' else v = v'.
Lemma same_shape_refl v : same_shape v v. Proof. destruct v; cbn; auto. Qed.
Lemma vrel_refl s v : vrel s v v. Proof. destruct s; cbn; auto using same_shape_refl. Qed.
Lemma vrel_up s t v v' : implb s t = true -> vrel s v v' -> vrel t v v'.
Proof. destruct s, t; cbn; try discriminate; auto. intros _ ->. apply same_shape_refl. Qed.
Definition zrel (s : bool) (z z' : Z) : Prop := s = true \/ z = z'.
Definition lrel (s : bool) (l l' : list Z) : Prop := if s then List.length l = List.length l' else l = l'.
Definition erel (S : string -> bool) (en en' : env) : Prop := forall x,
  match lookup x en, lookup x en' with Some v, Some v' => vrel (S x) v v' | None, None => True | _, _ => False end.
Lemma get_rel S en en' x : erel S en en' -> ends (vrel (S x)) (get x en) (get x en').
Proof. intros H. unfold get. specialize (H x). destruct (lookup x en), (lookup x en'); cbn; auto; contradiction. Qed.
Lemma lookup_upd {A} x y (v : A) e : lookup x (upd y v e) = if String.eqb x y then Some v else lookup x e.
Proof.
  induction e as [|(z, w) t IH]; cbn [upd lookup]; [destruct (String.eqb x y); reflexivity|].
  destruct (String.eqb_spec y z) as [<-|N]; cbn [lookup].
  - destruct (String.eqb x y); reflexivity.
  - rewrite IH. destruct (String.eqb_spec x z) as [->|N2]; [|reflexivity]. destruct (String.eqb_spec z y) as [->|_]; [congruence|reflexivity].
Qed.
Lemma erel_upd S en en' x v v' : erel S en en' -> vrel (S x) v v' -> erel S (upd x v en) (upd x v' en').
Proof. intros H V y. rewrite !lookup_upd. destruct (String.eqb_spec y x) as [->|N]; [exact V|apply H]. Qed.

Lemma oint_rel s m m' : orel (vrel s) m m' -> orel (zrel s) (oint m) (oint m').
Proof.
  intros H. unfold oint. eapply orel_bind; [exact H|]. intros a a' V. apply orel_lift. destruct s; cbn [vrel] in V.
  - destruct a, a'; cbn in *; auto; try contradiction. now left.
  - subst a'. destruct a; cbn; auto. now right.
Qed.
Lemma oarr_rel s m m' : orel (vrel s) m m' -> orel (lrel s) (oarr m) (oarr m').
Proof.
  intros H. unfold oarr. eapply orel_bind; [exact H|]. intros a a' V. apply orel_lift. destruct s; cbn [vrel] in V.
  - destruct a, a'; cbn in *; auto; contradiction.
  - subst a'. destruct a; cbn; auto.
Qed.
Lemma zrel_false z z' : zrel false z z' -> z = z'. Proof. intros [H|H]; [discriminate|exact H]. Qed.
Lemma vint_rel s z z' : zrel s z z' -> vrel s (VInt z) (VInt z').
Proof. intros [-> | ->]; [cbn; auto|apply vrel_refl]. Qed.
Lemma znth_len l l' j : List.length l = List.length l' ->
  match znth l j, znth l' j with Some _, Some _ => True | None, None => True | _, _ => False end.
Proof.
  intros H. unfold znth. destruct (j <? 0); auto. destruct (nth_error l (Z.to_nat j)) eqn:A, (nth_error l' (Z.to_nat j)) eqn:B; auto.
  - apply nth_error_None in B. assert (Z.to_nat j < List.length l)%nat by (apply nth_error_Some; congruence). lia.
  - apply nth_error_None in A. assert (Z.to_nat j < List.length l')%nat by (apply nth_error_Some; congruence). lia.
Qed.
Lemma znth_rel s l l' j : lrel s l l' ->
  ends (vrel s) (match znth l j with Some v => Ok (VInt v) | None => Panic end) (match znth l' j with Some v => Ok (VInt v) | None => Panic end).
Proof.
  destruct s; cbn [lrel]; intros H.
  - pose proof (znth_len l l' j H). destruct (znth l j), (znth l' j); cbn; auto.
  - subst l'. destruct (znth l j); cbn; auto.
Qed.
Lemma arith_rel s e z z' : zrel s z z' -> orel (zrel s) (tick e (arith md z)) (tick e (arith md z')).
Proof.
  intros [-> | ->]; [|apply orel_same; intros; now right]. unfold arith, orel, tick. cbn [fst snd].
  destruct (in_i64 z), (in_i64 z'), md; cbn; try (left; split; [reflexivity|]; first [now left|exact I]); right; [right|left]; split; auto using starts_refl.
Qed.

Section Expr.
  Variable S : string -> bool.
  Fixpoint lev (e : expr) : bool :=
    match e with
    | EInt _ | ELit _ => false
    | EVar x => S x
    | EIdx a _ | EShl a _ | EShr a _ | ENot a | ECast _ a | ERep a _ => lev a
    | EAdd a b | ESub a b | EMul a b | EAnd a b | EOr a b | EEq a b => lev a || lev b
    | EUSub _ _ | EUDiv _ _ | EURem _ _ => false
    end.
  Fixpoint safe (e : expr) : bool :=
    match e with
    | EInt _ | ELit _ | EVar _ => true
    | ENot a | ECast _ a | ERep a _ => safe a
    | EAdd a b | ESub a b | EMul a b | EAnd a b | EOr a b | EEq a b => safe a && safe b
    | EIdx a b | EShl a b | EShr a b => safe a && safe b && negb (lev b)
    | EUSub a b | EUDiv a b | EURem a b => safe a && safe b && negb (lev a) && negb (lev b)
    end.
  Lemma teval_rel e en en' : erel S en en' -> safe e = true -> orel (vrel (lev e)) (teval md e en) (teval md e en').
  Proof.
    intros HE. induction e; cbn [safe lev teval]; intros HS; rewrite ?andb_true_iff, ?negb_true_iff in HS.
    - apply orel_same, vrel_refl.
    - apply orel_same, vrel_refl.
    - apply orel_lift. now apply get_rel.
    - destruct HS as ((S1 & S2) & L). rewrite L in IHe2. eapply orel_bind; [apply oarr_rel, IHe1, S1|]. intros l l' R.
      eapply orel_bind; [apply oint_rel, IHe2, S2|]. intros j j' J. apply zrel_false in J. subst j'. apply orel_tick. now apply znth_rel.
    - destruct HS as (S1 & S2). eapply orel_bind; [apply oint_rel, IHe1, S1|]. intros x x' X. eapply orel_bind; [apply oint_rel, IHe2, S2|]. intros y y' Y.
      eapply orel_bind; [apply (arith_rel (lev e1 || lev e2))|intros z z' Z; apply orel_lift; now apply vint_rel].
      destruct X as [-> | ->]; [now left|]. destruct Y as [-> | ->]; [left; apply orb_true_r|now right].
    - destruct HS as (S1 & S2). eapply orel_bind; [apply oint_rel, IHe1, S1|]. intros x x' X. eapply orel_bind; [apply oint_rel, IHe2, S2|]. intros y y' Y.
      eapply orel_bind; [apply (arith_rel (lev e1 || lev e2))|intros z z' Z; apply orel_lift; now apply vint_rel].
      destruct X as [-> | ->]; [now left|]. destruct Y as [-> | ->]; [left; apply orb_true_r|now right].
    - destruct HS as (S1 & S2). eapply orel_bind; [apply oint_rel, IHe1, S1|]. intros x x' X. eapply orel_bind; [apply oint_rel, IHe2, S2|]. intros y y' Y.
      eapply orel_bind; [apply (arith_rel (lev e1 || lev e2))|intros z z' Z; apply orel_lift; now apply vint_rel].
      destruct X as [-> | ->]; [now left|]. destruct Y as [-> | ->]; [left; apply orb_true_r|now right].
    - destruct HS as (S1 & S2). eapply orel_bind; [apply oint_rel, IHe1, S1|]. intros x x' X. eapply orel_bind; [apply oint_rel, IHe2, S2|]. intros y y' Y.
      apply (orel_bind (zrel (lev e1 || lev e2))); [apply orel_tick|intros z z' Z; apply orel_lift; now apply vint_rel].
      destruct X as [-> | ->]; [now left|]. destruct Y as [-> | ->]; [left; apply orb_true_r|now right].
    - destruct HS as (S1 & S2). eapply orel_bind; [apply oint_rel, IHe1, S1|]. intros x x' X. eapply orel_bind; [apply oint_rel, IHe2, S2|]. intros y y' Y.
      apply (orel_bind (zrel (lev e1 || lev e2))); [apply orel_tick|intros z z' Z; apply orel_lift; now apply vint_rel].
      destruct X as [-> | ->]; [now left|]. destruct Y as [-> | ->]; [left; apply orb_true_r|now right].
    - destruct HS as ((S1 & S2) & L). rewrite L in IHe2. eapply orel_bind; [apply oint_rel, IHe1, S1|]. intros x x' X. eapply orel_bind; [apply oint_rel, IHe2, S2|].
      intros y y' Y. apply zrel_false in Y. subst y'. apply (orel_bind (zrel (lev e1))); [apply orel_tick|intros z z' Z; apply orel_lift; now apply vint_rel].
      destruct (shamt md y); cbn; auto. destruct X as [-> | ->]; [now left|now right].
    - destruct HS as ((S1 & S2) & L). rewrite L in IHe2. eapply orel_bind; [apply oint_rel, IHe1, S1|]. intros x x' X. eapply orel_bind; [apply oint_rel, IHe2, S2|].
      intros y y' Y. apply zrel_false in Y. subst y'. apply (orel_bind (zrel (lev e1))); [apply orel_tick|intros z z' Z; apply orel_lift; now apply vint_rel].
      destruct (shamt md y); cbn; auto. destruct X as [-> | ->]; [now left|now right].
    - destruct HS as (S1 & S2). eapply orel_bind; [apply oint_rel, IHe1, S1|]. intros x x' X. eapply orel_bind; [apply oint_rel, IHe2, S2|]. intros y y' Y.
      apply (orel_bind (zrel (lev e1 || lev e2))); [apply orel_tick|intros z z' Z; apply orel_lift; now apply vint_rel].
      destruct X as [-> | ->]; [now left|]. destruct Y as [-> | ->]; [left; apply orb_true_r|now right].
    - eapply orel_bind; [apply oint_rel, IHe, HS|]. intros x x' X. apply orel_tick. cbn. apply vint_rel. destruct X as [-> | ->]; [now left|now right].
    - destruct HS as (((S1 & S2) & L1) & L2). rewrite L1 in IHe1. rewrite L2 in IHe2. eapply orel_bind; [apply oint_rel, IHe1, S1|]. intros x x' X. eapply orel_bind; [apply oint_rel, IHe2, S2|].
      intros y y' Y. apply zrel_false in X, Y. subst x' y'. apply orel_same. intros; apply vrel_refl.
    - destruct HS as (((S1 & S2) & L1) & L2). rewrite L1 in IHe1. rewrite L2 in IHe2. eapply orel_bind; [apply oint_rel, IHe1, S1|]. intros x x' X. eapply orel_bind; [apply oint_rel, IHe2, S2|].
      intros y y' Y. apply zrel_false in X, Y. subst x' y'. apply orel_same. intros; apply vrel_refl.
    - destruct HS as (((S1 & S2) & L1) & L2). rewrite L1 in IHe1. rewrite L2 in IHe2. eapply orel_bind; [apply oint_rel, IHe1, S1|]. intros x x' X. eapply orel_bind; [apply oint_rel, IHe2, S2|].
      intros y y' Y. apply zrel_false in X, Y. subst x' y'. apply orel_same. intros; apply vrel_refl.
    - eapply orel_bind; [apply oint_rel, IHe, HS|]. intros x x' X. apply orel_tick. cbn. apply vint_rel. destruct X as [-> | ->]; [now left|now right].
    - eapply orel_bind; [apply oint_rel, IHe, HS|]. intros x x' X. apply orel_tick. cbn. destruct X as [-> | ->]; [cbn; now rewrite !repeat_length|apply vrel_refl].
  Qed.
  Lemma teval_up e t en en' : erel S en en' -> safe e = true -> implb (lev e) t = true -> orel (vrel t) (teval md e en) (teval md e en').
  Proof.
    intros HE HS U. destruct (teval_rel e en en' HE HS) as [(T & E)|H]; [left|right; exact H]. split; auto.
    destruct (snd (teval md e en)), (snd (teval md e en')); cbn in *; auto. eapply vrel_up; eauto.
  Qed.
End Expr.

(** ** Lists of values *)
Fixpoint vsrel (ts : list bool) (vs vs' : list val) : Prop :=
  match ts, vs, vs' with
  | [], [], [] => True
  | t :: ts, v :: vs, v' :: vs' => vrel t v v' /\ vsrel ts vs vs'
  | _, _, _ => False
  end.
Lemma tevals_rel S en en' : erel S en en' -> forall es ts, List.length es = List.length ts ->
  forallb (fun et => safe S (fst et) && implb (lev S (fst et)) (snd et)) (combine es ts) = true -> orel (vsrel ts) (tevals md es en) (tevals md es en').
Proof.
  intros HE. induction es as [|e es IH]; intros [|t ts] L H; try discriminate; [apply orel_lift; cbn; auto|].
  cbn [combine forallb fst snd] in H. rewrite !andb_true_iff in H. destruct H as ((H1 & H2) & H3). cbn [tevals].
  eapply orel_bind; [eapply teval_up; eauto|]. intros v v' V. eapply orel_bind; [apply (IH ts); [now injection L|exact H3]|]. intros vs vs' VS.
  apply orel_lift. cbn. auto.
Qed.

(** ** Statements.  [sig f]: which parameters and which results of [f] are secret *)
Section Stmt.
  Variable sig : string -> option (list bool * list bool).
  Variable tc : string -> list val -> out (list val * list val).
  Definition rrel (ps rs : list bool) (x x' : list val * list val) : Prop := vsrel rs (fst x) (fst x') /\ vsrel ps (snd x) (snd x').
  Hypothesis TC : forall f ps rs vs vs', sig f = Some (ps, rs) -> vsrel ps vs vs' -> orel (rrel ps rs) (tc f vs) (tc f vs').
  Variable S : string -> bool.
  Definition okarg (a : arg) (p : bool) : bool :=
    match a with AVal e => safe S e && implb (lev S e) p | AMut x => Bool.eqb (S x) p end.
  Fixpoint okargs (l : list arg) (ps : list bool) : bool :=
    match l, ps with [], [] => true | a :: l, p :: ps => okarg a p && okargs l ps | _, _ => false end.
  Fixpoint okdests (ds : list string) (rs : list bool) : bool :=
    match ds, rs with [], _ => true | d :: ds, r :: rs => implb r (S d) && okdests ds rs | _, _ => false end.
  Fixpoint okstmt (s : stmt) : bool :=
    match s with
    | SLet x e => safe S e && implb (lev S e) (S x)
    | SSet a i e => safe S e && safe S i && negb (lev S i) && implb (lev S e) (S a)
    | SCall ds f args => match sig f with Some (ps, rs) => okargs args ps && okdests ds rs | None => false end
    | SFor x lo hi body => safe S lo && safe S hi && negb (lev S lo) && negb (lev S hi) && (fix go l := match l with [] => true | s :: t => okstmt s && go t end) body
    | SGenRange x rng lo hi => safe S lo && safe S hi && negb (lev S lo) && negb (lev S hi) && S x && S rng
    | SPushStr f s => true
    | SPushHex f upper pad2 bits e => pad2 && (bits =? 8) && safe S e && implb (lev S e) (S f)
    end.
  Lemma args_rel en en' : erel S en en' -> forall l ps, okargs l ps = true -> orel (vsrel ps) (teval_args md l en) (teval_args md l en').
  Proof.
    intros HE. induction l as [|a l IH]; intros [|p ps] H; try discriminate; [apply orel_lift; cbn; auto|].
    cbn [okargs] in H. apply andb_true_iff in H. destruct H as (H1 & H2). cbn [teval_args].
    apply (orel_bind (vrel p)); [|intros v v' V; eapply orel_bind; [apply IH; exact H2|]; intros vs vs' VS; apply orel_lift; cbn; auto].
    destruct a as [e|x]; cbn [okarg] in H1.
    - apply andb_true_iff in H1. destruct H1. now apply (teval_up S).
    - apply eqb_prop in H1. rewrite <- H1. apply orel_lift. now apply get_rel.
  Qed.
  Lemma write_back_rel : forall l ps os os' en en', okargs l ps = true -> vsrel ps os os' -> erel S en en' -> ends (erel S) (write_back l os en) (write_back l os' en').
  Proof.
    induction l as [|a l IH]; intros [|p ps] [|o os] [|o' os'] en en' H V HE; try discriminate; try contradiction; [exact HE|].
    cbn [okargs] in H. apply andb_true_iff in H. destruct H as (H1 & H2). destruct V as (V1 & V2). destruct a as [e|x]; cbn [write_back].
    - now apply (IH ps).
    - apply (IH ps); auto. cbn [okarg] in H1. apply eqb_prop in H1. apply erel_upd; auto. now rewrite H1.
  Qed.
  Lemma bind_rets_rel : forall ds rs os os' en en', okdests ds rs = true -> vsrel rs os os' -> erel S en en' -> ends (erel S) (bind_rets ds os en) (bind_rets ds os' en').
  Proof.
    induction ds as [|d ds IH]; intros [|r rs] [|o os] [|o' os'] en en' H V HE; try discriminate; try contradiction; try exact HE.
    cbn [okdests] in H. apply andb_true_iff in H. destruct H as (H1 & H2). destruct V as (V1 & V2). cbn [bind_rets]. apply (IH rs); auto.
    apply erel_upd; auto. eapply vrel_up; eauto.
  Qed.
  Lemma upd_nth_len : forall l l' n v v', List.length l = List.length l' ->
    match upd_nth l n v, upd_nth l' n v' with Some k, Some k' => List.length k = List.length k' | None, None => True | _, _ => False end.
  Proof.
    induction l as [|a l IH]; intros [|a' l'] n v v' H; try discriminate; [reflexivity|]. destruct n as [|n]; cbn [upd_nth]; [exact H|].
    specialize (IH l' n v v' ltac:(cbn in H; lia)). destruct (upd_nth l n v), (upd_nth l' n v'); cbn; auto.
  Qed.
  Lemma hex_len upper z : List.length (hex_fmt upper true 8 z) = 2%nat.
  Proof.
    unfold hex_fmt. change (Z.to_nat (8 / 4)) with 2%nat. cbn [hex_digits app].
    generalize (hex_digit upper (z mod 2 ^ 8 / 16 mod 16)) (hex_digit upper (z mod 2 ^ 8 mod 16)). intros a b.
    assert (E : forall c, strip0 [c] = [c]).
    { intros c. destruct c as [|q|q]; [reflexivity| |reflexivity]. do 7 (try reflexivity; destruct q as [q|q|]); reflexivity. }
    assert (D : strip0 [a; b] = strip0 [b] \/ strip0 [a; b] = [a; b]).
    { destruct a as [|q|q]; [now right| |now right]. do 7 (try (right; reflexivity); try (left; reflexivity); destruct q as [q|q|]); first [right; reflexivity|left; reflexivity]. }
    destruct D as [D|D]; rewrite D, ?E; reflexivity.
  Qed.
  Lemma texec_rel s : forall en en', okstmt s = true -> erel S en en' -> orel (erel S) (texec md tc s en) (texec md tc s en').
  Proof.
    induction s using stmt_rect'; intros en en' H0 HE.
    - cbn [okstmt] in H0. apply andb_true_iff in H0. destruct H0. cbn [texec]. eapply orel_bind; [eapply (teval_up S); eauto|].
      intros v v' V. apply orel_tick. cbn. now apply erel_upd.
    - cbn [okstmt] in H0. rewrite !andb_true_iff, negb_true_iff in H0. destruct H0 as (((S1 & S2) & L) & U). cbn [texec].
      eapply orel_bind; [apply oint_rel, (teval_up S e (S a)); eauto|]. intros v v' V.
      pose proof (teval_rel S i en en' HE S2) as J. rewrite L in J. eapply orel_bind; [apply oint_rel, J|]. intros j j' JJ. apply zrel_false in JJ. subst j'.
      eapply orel_bind; [apply oarr_rel, orel_lift, (get_rel S _ _ a HE)|]. intros l l' LL. apply orel_tick. unfold zset. destruct (j <? 0); [cbn; auto|].
      destruct (S a) eqn:SA; cbn [lrel] in LL.
      + pose proof (upd_nth_len l l' (Z.to_nat j) v v' LL). destruct (upd_nth l (Z.to_nat j) v), (upd_nth l' (Z.to_nat j) v'); cbn; auto. apply erel_upd; auto. now rewrite SA.
      + apply zrel_false in V. subst l' v'. destruct (upd_nth l (Z.to_nat j) v); cbn; auto. apply erel_upd; auto. apply vrel_refl.
    - cbn [okstmt] in H0. destruct (sig f) as [(ps, rs)|] eqn:SF; [|discriminate]. apply andb_true_iff in H0. destruct H0 as (A & D). cbn [texec].
      eapply orel_bind; [apply (args_rel en en' HE _ _ A)|]. intros vs vs' VS.
      apply (orel_bind (fun _ _ => True)); [apply orel_tick; exact I|intros _ _ _].
      eapply orel_bind; [apply (TC f ps rs); auto|]. intros r r' (R1 & R2).
      apply (orel_bind (fun _ _ => True)); [apply orel_tick; exact I|intros _ _ _].
      eapply orel_bind; [apply orel_lift, (write_back_rel args ps); eauto|]. intros e1 e2 E12. apply orel_lift. now apply (bind_rets_rel ds rs).
    - cbn [okstmt] in H0. rewrite !andb_true_iff, !negb_true_iff in H0. destruct H0 as ((((S1 & S2) & L1) & L2) & B). rewrite !texec_for.
      pose proof (teval_rel S lo en en' HE S1) as J1. rewrite L1 in J1. pose proof (teval_rel S hi en en' HE S2) as J2. rewrite L2 in J2.
      eapply orel_bind; [apply oint_rel, J1|]. intros a a' E1. apply zrel_false in E1. subst a'. eapply orel_bind; [apply oint_rel, J2|]. intros b b' E2. apply zrel_false in E2. subst b'.
      apply (orel_bind (fun _ _ => True)); [apply orel_tick; exact I|intros _ _ _].
      assert (G : forall e e', erel S e e' -> orel (erel S) (texec_list md tc body e) (texec_list md tc body e')).
      { induction H as [|s t Hs Ht IH]; intros e e' EE; [apply orel_lift; exact EE|]. apply andb_true_iff in B. destruct B as (B1 & B2).
        cbn [texec_list]. eapply orel_bind; [apply Hs; auto|]. intros e1 e2 E12. now apply IH. }
      clear J1 J2. generalize (Z.to_nat (b - a)). intros n. revert en en' HE. generalize a. revert n. induction n as [|n IH]; intros i en en' HE; [apply orel_lift; exact HE|].
      cbn [titer]. apply (orel_bind (fun _ _ => True)); [apply orel_tick; exact I|intros _ _ _]. eapply orel_bind; [apply G, erel_upd; [exact HE|apply vrel_refl]|]. intros e1 e2 E12. now apply IH.
    - cbn [okstmt] in H0. rewrite !andb_true_iff, !negb_true_iff in H0. destruct H0 as (((((S1 & S2) & L1) & L2) & SX) & SR). cbn [texec].
      pose proof (teval_rel S lo en en' HE S1) as J1. rewrite L1 in J1. pose proof (teval_rel S hi en en' HE S2) as J2. rewrite L2 in J2.
      eapply orel_bind; [apply oint_rel, J1|]. intros a a' E1. apply zrel_false in E1. subst a'. eapply orel_bind; [apply oint_rel, J2|]. intros b b' E2. apply zrel_false in E2. subst b'.
      eapply orel_bind; [apply oarr_rel, orel_lift, (get_rel S _ _ r HE)|]. intros l l' LL. rewrite SR in LL. cbn [lrel] in LL. apply orel_tick. destruct (b <=? a); [cbn; auto|].
      destruct l as [|d t], l' as [|d' t']; try discriminate; cbn; auto. apply erel_upd; [apply erel_upd; auto; rewrite SR; cbn in LL |- *; lia|rewrite SX; cbn; auto].
    - cbn [texec]. eapply orel_bind; [apply oarr_rel, orel_lift, (get_rel S _ _ f HE)|]. intros l l' LL. apply orel_tick. cbn. apply erel_upd; auto.
      destruct (S f); cbn [lrel vrel] in *; [cbn; now rewrite !app_length, LL|now rewrite LL].
    - cbn [okstmt] in H0. rewrite !andb_true_iff in H0. destruct H0 as (((P1 & B8) & S1) & U). subst p. apply Z.eqb_eq in B8. subst b. cbn [texec].
      eapply orel_bind; [apply oint_rel, (teval_up S e (S f)); eauto|]. intros z z' ZZ.
      eapply orel_bind; [apply oarr_rel, orel_lift, (get_rel S _ _ f HE)|]. intros l l' LL. rewrite !hex_len. apply orel_tick. cbn [ends]. apply erel_upd; auto.
      destruct (S f); cbn [lrel vrel] in *; [cbn [same_shape]; now rewrite !app_length, !hex_len, LL|apply zrel_false in ZZ; now rewrite LL, ZZ].
  Qed.
  Lemma texec_list_rel l : forall en en', forallb okstmt l = true -> erel S en en' -> orel (erel S) (texec_list md tc l en) (texec_list md tc l en').
  Proof.
    induction l as [|s t IH]; intros en en' H HE; [apply orel_lift; exact HE|]. cbn [forallb] in H. apply andb_true_iff in H. destruct H.
    cbn [texec_list]. eapply orel_bind; [apply texec_rel; eauto|]. intros e e' EE. now apply IH.
  Qed.
  Lemma gets_rel : forall xs en en', erel S en en' -> ends (vsrel (map S xs)) (gets xs en) (gets xs en').
  Proof.
    induction xs as [|x xs IH]; intros en en' HE; [cbn; auto|]. cbn [gets map]. pose proof (get_rel S _ _ x HE) as G. specialize (IH en en' HE).
    destruct (get x en), (get x en'); cbn in G |- *; auto; try contradiction.
    destruct (gets xs en), (gets xs en'); cbn in IH |- *; auto.
  Qed.
  Lemma combine_rel : forall xs vs vs', vsrel (map S xs) vs vs' -> erel S (combine xs vs) (combine xs vs').
  Proof.
    induction xs as [|x xs IH]; intros [|v vs] [|v' vs'] H; try contradiction; intros y; [cbn; auto|]. destruct H as (H1 & H2). cbn [combine lookup].
    destruct (String.eqb_spec y x) as [->|N]; [exact H1|]. exact (IH vs vs' H2 y).
  Qed.
  Definition okfunc (fn : func) (ps rs : list bool) : bool :=
    forallb okstmt (f_body fn) && (if list_eq_dec bool_dec (map S (f_params fn)) ps then true else false) &&
    (List.length (f_rets fn) =? List.length rs)%nat && forallb (fun et => safe S (fst et) && implb (lev S (fst et)) (snd et)) (combine (f_rets fn) rs).
  Lemma vsrel_len : forall ts vs vs', vsrel ts vs vs' -> List.length vs = List.length ts /\ List.length vs' = List.length ts.
  Proof. induction ts as [|t ts IH]; intros [|v vs] [|v' vs'] H; try contradiction; [auto|]. destruct H as (_ & H). destruct (IH _ _ H). cbn. lia. Qed.
  Lemma trun_rel fn ps rs vs vs' : okfunc fn ps rs = true -> vsrel ps vs vs' -> orel (rrel ps rs) (trun_func md tc fn vs) (trun_func md tc fn vs').
  Proof.
    unfold okfunc. rewrite !andb_true_iff. intros (((B & P) & L) & R) V. destruct (list_eq_dec bool_dec (map S (f_params fn)) ps) as [<-|]; [|discriminate].
    apply Nat.eqb_eq in L. destruct (vsrel_len _ _ _ V) as (L1 & L2). unfold trun_func. rewrite L1, L2. destruct (Nat.eqb _ _); [|apply orel_lift; exact I].
    eapply orel_bind; [apply texec_list_rel; [exact B|apply combine_rel; exact V]|]. intros en en' HE.
    eapply orel_bind; [apply (tevals_rel S _ _ HE _ _ L R)|]. intros r r' RR. eapply orel_bind; [apply orel_lift, (gets_rel _ _ _ HE)|]. intros o o' OO.
    apply orel_lift. cbn. split; auto.
  Qed.
End Stmt.
End Rel.

(** ** The library *)
(* the only public parameter is the bit number, the only public results are sizes *)
Definition memb (x : string) (l : list string) : bool := existsb (String.eqb x) l.
Definition levels (f : string) (fn : func) : list bool * list bool :=
  (map (fun i => negb (memb f ["F::bit"; "F::bit_normalized"] && Nat.eqb i 1)) (seq 0 (List.length (f_params fn))),
   map (fun _ => negb (memb f ["F::nbits"; "F::nbytes"])) (f_rets fn)).
Definition table_sig (tbl : list (string * func)) (f : string) : option (list bool * list bool) :=
  if String.eqb f "F::Debug::fmt" then None else match lookup f tbl with Some fn => Some (levels f fn) | None => None end.
(* the public variables of a function, guessed; [okfunc] checks the guess *)
Definition publics (f : string) : list string :=
  if memb f ["F::bit"; "F::bit_normalized"] then ["idx"; "byte"; "bit"]
  else if String.eqb f "P::scalar_mult_normalized" then ["i"; "idx"; "nbits"] else ["i"; "nbits"; "nbytes"].
Definition okentry (tbl : list (string * func)) (e : string * func) : bool :=
  String.eqb (fst e) "F::Debug::fmt" || let l := publics (fst e) in okfunc (table_sig tbl) (fun x => negb (memb x l)) (snd e) (fst (levels (fst e) (snd e))) (snd (levels (fst e) (snd e))).
Lemma lookup_in {A} x (l : list (string * A)) v : lookup x l = Some v -> In (x, v) l.
Proof.
  induction l as [|(y, w) t IH]; cbn [lookup]; [discriminate|]. destruct (String.eqb_spec x y) as [->|N]; [intros [= ->]; now left|right; auto].
Qed.
Lemma sound md tbl : forallb (okentry tbl) tbl = true -> forall fuel f ps rs vs vs', table_sig tbl f = Some (ps, rs) -> vsrel ps vs vs' ->
  orel md (rrel ps rs) (tcall md tbl fuel f vs) (tcall md tbl fuel f vs').
Proof.
  intros H. induction fuel as [|k IH]; intros f ps rs vs vs' SF V; unfold table_sig in SF; destruct (String.eqb_spec f "F::Debug::fmt") as [E|NE]; try discriminate;
    destruct (lookup f tbl) as [fn|] eqn:L; try discriminate; cbn [tcall]; rewrite L; [apply orel_lift; exact I|].
  injection SF as <- <-. pose proof (proj1 (forallb_forall _ _) H _ (lookup_in _ _ _ L)) as O. unfold okentry in O. cbn [fst snd] in O.
  apply orb_true_iff in O. destruct O as [O|O]; [apply String.eqb_eq in O; contradiction|].
  eapply trun_rel; [exact IH|exact O|exact V].
Qed.
Lemma fields_checked : forallb (fun F => forallb (okentry (fl_tbl F)) (fl_tbl F)) all_fields = true.
Proof. vm_compute. reflexivity. Qed.
Lemma curves_checked : forallb (fun C => forallb (okentry (cv_tbl C)) (cv_tbl C)) all_curves = true.
Proof. vm_compute. reflexivity. Qed.

Lemma all_secret f n : memb f ["F::bit"; "F::bit_normalized"] = false -> forall k, map (fun i => negb (memb f ["F::bit"; "F::bit_normalized"] && Nat.eqb i 1)) (seq k n) = repeat true n.
Proof. intros E. rewrite E. induction n as [|n IH]; intros k; [reflexivity|]. cbn [seq map repeat]. rewrite IH. reflexivity. Qed.
Definition bit_arity tbl : bool := forallb (fun f => match lookup f tbl with Some fn => Nat.eqb (List.length (f_params fn)) 2 | None => true end) ["F::bit"; "F::bit_normalized"].
Lemma stuck_call md tbl f vs : (forall fn, lookup f tbl = Some fn -> List.length (f_params fn) <> List.length vs) -> traced md tbl f vs = ([], Stuck).
Proof.
  intros H. unfold traced. cbn [tcall]. destruct (lookup f tbl) as [fn|] eqn:E; [|reflexivity]. unfold trun_func.
  destruct (Nat.eqb_spec (List.length (f_params fn)) (List.length vs)) as [L|L]; [now apply H in L|reflexivity].
Qed.
Lemma alike_rel f fn vs ws : List.length (f_params fn) = List.length vs -> (takes_bit_number f -> List.length vs = 2%nat) -> alike f vs ws ->
  vsrel (fst (levels f fn)) vs ws.
Proof.
  intros L B (H & E). unfold levels. cbn [fst]. rewrite L. destruct (memb f ["F::bit"; "F::bit_normalized"]) eqn:M.
  - assert (T : takes_bit_number f).
    { unfold memb in M. cbn [existsb] in M. rewrite !orb_true_iff, !String.eqb_eq in M. destruct M as [M|[M|M]]; [now left|now right|discriminate]. }
    specialize (B T). specialize (E T). destruct H as [|v w vs ws H1 H]; [discriminate|]. destruct H as [|v2 w2 vs ws H2 H]; [discriminate|]. destruct H; [|discriminate].
    cbn in E |- *. injection E as ->. auto.
  - rewrite <- M. rewrite (all_secret f _ M). clear - H. induction H; cbn; auto.
Qed.
Lemma shapes_length : forall vs ws, Forall2 same_shape vs ws -> List.length vs = List.length ws.
Proof. intros vs ws H. induction H; cbn; congruence. Qed.
Section Verdict.
  Variable tbl : list (string * func).
  Hypothesis OK : forallb (okentry tbl) tbl = true.
  Hypothesis AR : bit_arity tbl = true.
  Lemma two_runs md f vs ws : f <> "F::Debug::fmt" -> alike f vs ws -> orel md (fun _ _ => True) (traced md tbl f vs) (traced md tbl f ws).
  Proof.
    intros N H. pose proof (shapes_length _ _ (proj1 H)) as LV.
    destruct (lookup f tbl) as [fn|] eqn:L; [|rewrite !stuck_call by (intros fn; congruence); left; split; [reflexivity|exact I]].
    destruct (Nat.eq_dec (List.length (f_params fn)) (List.length vs)) as [LL|LL]; [|rewrite !stuck_call by (intros fn'; rewrite L; intros [= <-]; congruence); left; split; [reflexivity|exact I]].
    assert (V : vsrel (fst (levels f fn)) vs ws).
    { apply alike_rel; auto. intros T. unfold bit_arity in AR. rewrite forallb_forall in AR. specialize (AR f). rewrite L in AR. rewrite <- LL. apply Nat.eqb_eq, AR. destruct T as [->| ->]; cbn; auto. }
    pose proof (sound md tbl OK 16 f (fst (levels f fn)) (snd (levels f fn)) vs ws) as K. unfold table_sig in K.
    destruct (String.eqb_spec f "F::Debug::fmt") as [E|_]; [contradiction|]. rewrite L in K. specialize (K eq_refl V).
    destruct K as [(T & E)|K]; [left|right; exact K]. split; auto. unfold traced in *. destruct (snd (tcall md tbl 16 f vs)), (snd (tcall md tbl 16 f ws)); cbn in *; auto.
  Qed.
  Lemma release_same f vs ws : f <> "F::Debug::fmt" -> alike f vs ws -> trace Release tbl f vs = trace Release tbl f ws.
  Proof. intros N H. destruct (two_runs Release f vs ws N H) as [(T & _)|[(D & _)|(D & _)]]; [exact T|discriminate|discriminate]. Qed.
  Lemma completed_same md f vs ws r s : f <> "F::Debug::fmt" -> alike f vs ws -> rust_call md tbl f vs = Ok r -> rust_call md tbl f ws = Ok s ->
    trace md tbl f vs = trace md tbl f ws.
  Proof.
    intros N H R S. rewrite <- erasure in R, S. destruct (two_runs md f vs ws N H) as [(T & _)|[(_ & P & _)|(_ & P & _)]]; [exact T|rewrite P in R; discriminate|rewrite P in S; discriminate].
  Qed.
  Lemma panic_cuts md f vs ws : f <> "F::Debug::fmt" -> alike f vs ws -> rust_call md tbl f vs = Panic ->
    starts (trace md tbl f vs) (trace md tbl f ws) \/ (rust_call md tbl f ws = Panic /\ starts (trace md tbl f ws) (trace md tbl f vs)).
  Proof.
    intros N H R. rewrite <- erasure in *. unfold trace. destruct (two_runs md f vs ws N H) as [(T & _)|[(_ & P & T)|(_ & P & T)]]; [left; rewrite T; apply starts_refl|left; exact T|right; auto].
  Qed.
End Verdict.
Lemma field_ok F : In F all_fields -> forallb (okentry (fl_tbl F)) (fl_tbl F) = true /\ bit_arity (fl_tbl F) = true.
Proof.
  intros H. split; [exact (proj1 (forallb_forall _ _) fields_checked F H)|].
  revert F H. apply forallb_forall. vm_compute. reflexivity.
Qed.
Lemma curve_ok C : In C all_curves -> forallb (okentry (cv_tbl C)) (cv_tbl C) = true /\ bit_arity (cv_tbl C) = true.
Proof.
  intros H. split; [exact (proj1 (forallb_forall _ _) curves_checked C H)|].
  revert C H. apply forallb_forall. vm_compute. reflexivity.
Qed.

(** ** Scalar multiplication by two secret scalars *)
Lemma produced_shapes C P Q : produced_point C P -> produced_point C Q -> Forall2 same_shape (coords P) (coords Q).
Proof.
  intros (x & y & z & t & -> & (X & _) & (Y & _) & (Z & _) & (T & _)) (x' & y' & z' & t' & -> & (X' & _) & (Y' & _) & (Z' & _) & (T' & _)).
  unfold coords. cbn [eX eY eZ eT]. repeat constructor; cbn; congruence.
Qed.
Lemma ladder_same C : In C all_curves -> forall md P Q n m, produced_point C P -> produced_point C Q -> produced (cv_fld C) n -> produced (cv_fld C) m ->
  trace md (cv_tbl C) "P::scalar_mult" (coords P ++ [VArr n]) = trace md (cv_tbl C) "P::scalar_mult" (coords Q ++ [VArr m]).
Proof.
  intros H md P Q n m HP HQ N M. destruct (curve_scalar_safe C H P n HP N) as (R & n' & K & _), (curve_scalar_safe C H Q m HQ M) as (S & m' & K' & _).
  eapply completed_same; [exact (proj1 (curve_ok C H))|exact (proj2 (curve_ok C H))|discriminate| |apply K|apply K'].
  split; [|intros [E|E]; discriminate]. apply Forall2_app; [now apply (produced_shapes C)|]. repeat constructor. destruct N as (N & _), M as (M & _). cbn. congruence.
Qed.
(** debug formatting is the exception: it writes as many characters as the words have digits *)
Lemma debug_leaks F : In F all_fields -> exists a b, alike "F::Debug::fmt" [VArr a; VArr []] [VArr b; VArr []] /\
  trace Release (fl_tbl F) "F::Debug::fmt" [VArr a; VArr []] <> trace Release (fl_tbl F) "F::Debug::fmt" [VArr b; VArr []].
Proof.
  intros H. exists (repeat 0 (fl_n F)), (repeat 255 (fl_n F)). split.
  - split; [|intros [E|E]; discriminate]. repeat constructor. cbn. now rewrite !repeat_length.
  - cbn in H. repeat (destruct H as [<-|H]; [vm_compute; discriminate|]). contradiction.
Qed.
