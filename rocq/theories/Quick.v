(** The interpreter of Lang.v with its variables kept in a binary tree instead
    of a list, and the proof that it computes the same results.  Only proofs
    that evaluate the translated source on given words use it: it makes the
    kernel's own evaluation of them much cheaper. *)
From Coq Require Import ZArith List String Ascii Bool Lia.
From Verif Require Import Lang.
Import ListNotations.
Local Open Scope Z_scope.
Local Open Scope list_scope.

(** ** Trees indexed by the bits of a name *)
Inductive trie (A : Type) := TL | TN (v : option A) (l r : trie A).
Arguments TL {A}. Arguments TN {A}.
Fixpoint bits (s : string) : list bool :=
  match s with
  | EmptyString => []
  | String (Ascii a b c d e f g h) t => a :: b :: c :: d :: e :: f :: g :: h :: bits t
  end.
Lemma bits_inj s : forall t, bits s = bits t -> s = t.
Proof.
  induction s as [|[a b c d e f g h] s IH]; intros [|[a' b' c' d' e' f' g' h'] t]; cbn [bits]; intros E; try discriminate E; [reflexivity|].
  injection E as -> -> -> -> -> -> -> -> E. now rewrite (IH t E).
Qed.
Fixpoint tget {A} (p : list bool) (t : trie A) : option A :=
  match t with
  | TL => None
  | TN v l r => match p with [] => v | b :: p => tget p (if b then r else l) end
  end.
Fixpoint tset {A} (p : list bool) (x : A) (t : trie A) : trie A :=
  match p with
  | [] => match t with TL => TN (Some x) TL TL | TN _ l r => TN (Some x) l r end
  | true :: p => match t with TL => TN None TL (tset p x TL) | TN v l r => TN v l (tset p x r) end
  | false :: p => match t with TL => TN None (tset p x TL) TL | TN v l r => TN v (tset p x l) r end
  end.
Lemma tget_set {A} p (x : A) : forall q t, tget q (tset p x t) = if list_eq_dec Bool.bool_dec q p then Some x else tget q t.
Proof.
  assert (N : forall q, tget q (@TL A) = None) by (intros q; destruct q; reflexivity).
  induction p as [|b p IH]; intros q t.
  - destruct q as [|c q], t as [|v l r]; cbn [tset tget]; try reflexivity; try (destruct c; apply N);
      destruct (list_eq_dec Bool.bool_dec _ _) as [E|E]; try discriminate E; try congruence; destruct c; now rewrite ?N.
  - destruct q as [|c q].
    { destruct b, t as [|v l r]; cbn [tset tget]; destruct (list_eq_dec Bool.bool_dec _ _) as [E|E]; try discriminate E; reflexivity. }
    destruct b, c, t as [|v l r]; cbn [tset tget]; rewrite ?N, ?IH, ?N;
      repeat (destruct (list_eq_dec Bool.bool_dec _ _) as [?E|?E]); try reflexivity; try congruence.
Qed.
Definition qlookup {A} (x : string) (t : trie A) : option A := tget (bits x) t.
Definition qupd {A} (x : string) (v : A) (t : trie A) : trie A := tset (bits x) v t.
Definition same {A} (e : list (string * A)) (t : trie A) : Prop := forall x, lookup x e = qlookup x t.
Lemma lookup_upd_any {A} x y (v : A) e : lookup y (upd x v e) = if String.eqb y x then Some v else lookup y e.
Proof.
  induction e as [|[z w] e IH]; cbn [upd lookup]; [reflexivity|].
  destruct (String.eqb_spec x z) as [<-|N]; cbn [lookup]; [now destruct (String.eqb y x)|].
  rewrite IH. destruct (String.eqb_spec y z) as [->|M]; [|reflexivity]. destruct (String.eqb_spec z x) as [->|]; [congruence|reflexivity].
Qed.
Lemma qlookup_upd {A} x y (v : A) t : qlookup y (qupd x v t) = if String.eqb y x then Some v else qlookup y t.
Proof.
  unfold qlookup, qupd. rewrite tget_set. destruct (String.eqb_spec y x) as [->|N]; destruct (list_eq_dec Bool.bool_dec _ _) as [E|E]; try reflexivity; [now elim E|].
  elim N. now apply bits_inj.
Qed.
Lemma same_upd {A} x (v : A) e t : same e t -> same (upd x v e) (qupd x v t).
Proof. intros H y. rewrite lookup_upd_any, qlookup_upd, H. reflexivity. Qed.
Definition of_list {A} (l : list (string * A)) : trie A := fold_right (fun xv t => qupd (fst xv) (snd xv) t) TL l.
Lemma same_of_list {A} (l : list (string * A)) : same l (of_list l).
Proof.
  induction l as [|[x v] l IH]; intros y; [unfold qlookup; cbn; now destruct (bits y)|].
  cbn [of_list fold_right fst snd lookup]. fold (of_list l). rewrite qlookup_upd, IH. reflexivity.
Qed.

(** ** Arithmetic, with the bounds of the machine integers written out *)
Definition qarith (md : mode) (z : Z) : res Z :=
  if (-9223372036854775808 <=? z) && (z <? 9223372036854775808) then Ok z
  else match md with Debug => Panic | Release => Ok (wrap 64 z) end.
Lemma qarith_ok md z : qarith md z = arith md z. Proof. reflexivity. Qed.
Definition qwrap64 (z : Z) : Z :=
  if (-9223372036854775808 <=? z) && (z <? 9223372036854775808) then z else wrap 64 z.
Lemma qwrap64_ok z : qwrap64 z = wrap 64 z.
Proof.
  unfold qwrap64. destruct (_ && _) eqn:E; [|reflexivity]. apply andb_true_iff in E. destruct E as [L U]. apply Z.leb_le in L. apply Z.ltb_lt in U.
  unfold wrap. cbv zeta. change (2 ^ 64) with 18446744073709551616. change (2 ^ (64 - 1)) with 9223372036854775808.
  destruct (Z_lt_le_dec z 0) as [N|N].
  - assert (M : z mod 18446744073709551616 = z + 18446744073709551616) by (symmetry; apply (Z.mod_unique _ _ (-1)); lia).
    rewrite M. destruct (Z.ltb_spec (z + 18446744073709551616) 9223372036854775808); lia.
  - rewrite Z.mod_small by lia. destruct (Z.ltb_spec z 9223372036854775808); lia.
Qed.

(** ** Expressions *)
Definition qenv := trie val.
Definition qget (x : string) (t : qenv) : res val := match qlookup x t with Some v => Ok v | None => Stuck end.
Lemma qget_ok x e t : same e t -> qget x t = get x e.
Proof. intros H. unfold qget, get. now rewrite H. Qed.
Section Eval.
  Variable md : mode.
  Fixpoint qeval (e : expr) (en : qenv) : res val :=
    let int2 a b (f : Z -> Z -> res Z) :=
      bind (bind (qeval a en) as_int) (fun x =>
      bind (bind (qeval b en) as_int) (fun y =>
      bind (f x y) (fun z => Ok (VInt z)))) in
    match e with
    | EInt z => Ok (VInt z)
    | ELit l => Ok (VArr l)
    | EVar x => qget x en
    | EIdx a i =>
        bind (bind (qeval a en) as_arr) (fun l =>
        bind (bind (qeval i en) as_int) (fun j =>
        match znth l j with Some v => Ok (VInt v) | None => Panic end))
    | EAdd a b => int2 a b (fun x y => qarith md (x + y))
    | ESub a b => int2 a b (fun x y => qarith md (x - y))
    | EMul a b => int2 a b (fun x y => qarith md (x * y))
    | EAnd a b => int2 a b (fun x y => Ok (Z.land x y))
    | EOr a b => int2 a b (fun x y => Ok (Z.lor x y))
    | EShl a b => int2 a b (fun x y => bind (shamt md y) (fun n => Ok (qwrap64 (Z.shiftl x n))))
    | EShr a b => int2 a b (fun x y => bind (shamt md y) (fun n => Ok (Z.shiftr x n)))
    | EEq a b => int2 a b (fun x y => Ok (if x =? y then 1 else 0))
    | ENot a => bind (bind (qeval a en) as_int) (fun x => Ok (VInt (if x =? 0 then 1 else 0)))
    | EUSub a b => int2 a b (fun x y => uarith md (x - y))
    | EUDiv a b => int2 a b (fun x y => if y =? 0 then Panic else Ok (x / y))
    | EURem a b => int2 a b (fun x y => if y =? 0 then Panic else Ok (x mod y))
    | ECast t a => bind (bind (qeval a en) as_int) (fun x => Ok (VInt (cast t x)))
    | ERep a n => bind (bind (qeval a en) as_int) (fun x => Ok (VArr (repeat x n)))
    end.
  Fixpoint qevals (es : list expr) (en : qenv) : res (list val) :=
    match es with
    | [] => Ok []
    | e :: t => bind (qeval e en) (fun v => bind (qevals t en) (fun vs => Ok (v :: vs)))
    end.
  Lemma qeval_ok e en t : same en t -> qeval e t = eval md e en.
  Proof.
    intros H. induction e; cbn [eval qeval]; cbv zeta; try (now apply qget_ok); try reflexivity;
      repeat match goal with IH : qeval _ _ = _ |- _ => rewrite IH; clear IH end; try reflexivity.
    destruct (bind (eval md e1 en) as_int) as [x| |], (bind (eval md e2 en) as_int) as [y| |]; cbn [bind]; try reflexivity.
    destruct (shamt md y) as [n| |]; cbn [bind]; [|reflexivity|reflexivity]. now rewrite qwrap64_ok.
  Qed.
  Lemma qevals_ok es en t : same en t -> qevals es t = evals md es en.
  Proof. intros H. induction es as [|e es IH]; cbn [evals qevals]; [reflexivity|]. now rewrite IH, (qeval_ok e en t H). Qed.
End Eval.

(** ** Statements *)
Definition rel (a : res env) (b : res qenv) : Prop :=
  match a, b with Ok e, Ok t => same e t | Panic, Panic => True | Stuck, Stuck => True | _, _ => False end.
Lemma rel_bind a b f g : rel a b -> (forall e t, same e t -> rel (f e) (g t)) -> rel (bind a f) (bind b g).
Proof. destruct a, b; cbn [rel bind]; intros H K; try contradiction; auto. Qed.
Lemma rel_bind_same {A} (a : res A) f g : (forall v, rel (f v) (g v)) -> rel (bind a f) (bind a g).
Proof. destruct a; cbn [bind]; intros K; [apply K|exact I|exact I]. Qed.

Section Exec.
  Variable md : mode.
  Variable call qcall : string -> list val -> res (list val * list val).
  Hypothesis Q : forall f vs, qcall f vs = call f vs.

  Fixpoint qeval_args (l : list arg) (en : qenv) : res (list val) :=
    match l with
    | [] => Ok []
    | a :: t =>
        bind (match a with AVal e => qeval md e en | AMut x => qget x en end) (fun v =>
        bind (qeval_args t en) (fun vs => Ok (v :: vs)))
    end.
  Lemma qeval_args_ok l en t : same en t -> qeval_args l t = eval_args md l en.
  Proof.
    intros H. induction l as [|a l IH]; cbn [qeval_args eval_args]; [reflexivity|]. rewrite IH.
    destruct a; [now rewrite (qeval_ok md _ en t H)|now rewrite (qget_ok _ en t H)].
  Qed.
  Fixpoint qwrite_back (l : list arg) (outs : list val) (en : qenv) : res qenv :=
    match l, outs with
    | [], [] => Ok en
    | AVal _ :: t, _ :: vs => qwrite_back t vs en
    | AMut x :: t, v :: vs => qwrite_back t vs (qupd x v en)
    | _, _ => Stuck
    end.
  Lemma qwrite_back_ok l : forall outs en t, same en t -> rel (write_back l outs en) (qwrite_back l outs t).
  Proof.
    induction l as [|a l IH]; intros [|v outs] en t H; [exact H|exact I|destruct a; exact I|].
    destruct a; cbn [write_back qwrite_back]; [now apply IH|]. apply IH. now apply same_upd.
  Qed.
  Fixpoint qbind_rets (ds : list string) (rets : list val) (en : qenv) : res qenv :=
    match ds, rets with
    | [], _ => Ok en
    | d :: t, v :: vs => qbind_rets t vs (qupd d v en)
    | _ :: _, [] => Stuck
    end.
  Lemma qbind_rets_ok ds : forall rets en t, same en t -> rel (bind_rets ds rets en) (qbind_rets ds rets t).
  Proof.
    induction ds as [|d ds IH]; intros [|v rets] en t H; [exact H|exact H|exact I|]. cbn [bind_rets qbind_rets]. apply IH. now apply same_upd.
  Qed.

  Fixpoint qexec (s : stmt) (en : qenv) {struct s} : res qenv :=
    let exec_list := fix go (l : list stmt) (en : qenv) : res qenv :=
      match l with [] => Ok en | s :: t => bind (qexec s en) (go t) end in
    match s with
    | SLet x e => bind (qeval md e en) (fun v => Ok (qupd x v en))
    | SSet a i e =>
        bind (bind (qeval md e en) as_int) (fun v =>
        bind (bind (qeval md i en) as_int) (fun j =>
        bind (bind (qget a en) as_arr) (fun l =>
        match zset l j v with Some l' => Ok (qupd a (VArr l') en) | None => Panic end)))
    | SCall ds f args =>
        bind (qeval_args args en) (fun vs =>
        bind (qcall f vs) (fun ro =>
        bind (qwrite_back args (snd ro) en) (fun en' => qbind_rets ds (fst ro) en')))
    | SFor x lo hi body =>
        bind (bind (qeval md lo en) as_int) (fun a =>
        bind (bind (qeval md hi en) as_int) (fun b =>
        (fix loop (n : nat) (i : Z) (en : qenv) : res qenv :=
           match n with
           | O => Ok en
           | S k => bind (exec_list body (qupd x (VInt i) en)) (loop k (i + 1))
           end) (Z.to_nat (b - a)) a en))
    | SGenRange x rng lo hi =>
        bind (bind (qeval md lo en) as_int) (fun a =>
        bind (bind (qeval md hi en) as_int) (fun b =>
        bind (bind (qget rng en) as_arr) (fun ds =>
        if b <=? a then Panic else
        match ds with
        | [] => Stuck
        | d :: t => Ok (qupd x (VInt (a + d mod (b - a))) (qupd rng (VArr t) en))
        end)))
    | SPushStr f s =>
        bind (bind (qget f en) as_arr) (fun l => Ok (qupd f (VArr (l ++ codes s)) en))
    | SPushHex f upper pad2 bits e =>
        bind (bind (qeval md e en) as_int) (fun z =>
        bind (bind (qget f en) as_arr) (fun l =>
        Ok (qupd f (VArr (l ++ hex_fmt upper pad2 bits z)) en)))
    end.
  Fixpoint qexec_list (l : list stmt) (en : qenv) : res qenv :=
    match l with [] => Ok en | s :: t => bind (qexec s en) (qexec_list t) end.

  Fixpoint qexec_ok (s : stmt) : forall en t, same en t -> rel (exec md call s en) (qexec s t).
  Proof.
    destruct s as [x e|a i e|ds f args|x lo hi body|x rng lo hi|f s|f u p b e]; intros en t H; cbn [exec qexec]; cbv zeta;
      rewrite ?(qeval_ok md _ en t H), ?(qget_ok _ en t H), ?(qeval_args_ok _ en t H).
    - apply rel_bind_same. intros v. now apply same_upd.
    - apply rel_bind_same. intros v. rewrite ?(qeval_ok md _ en t H). apply rel_bind_same. intros j. rewrite ?(qget_ok _ en t H). apply rel_bind_same. intros l.
      destruct (zset l j v); [now apply same_upd|exact I].
    - apply rel_bind_same. intros vs. rewrite Q. apply rel_bind_same. intros ro. apply rel_bind; [now apply qwrite_back_ok|]. intros. now apply qbind_rets_ok.
    - apply rel_bind_same. intros a. rewrite ?(qeval_ok md _ en t H). apply rel_bind_same. intros b. generalize (Z.to_nat (b - a)). intros n. clear b. revert a en t H.
      assert (L : forall en t, same en t ->
        rel ((fix go (l : list stmt) (en : env) : res env := match l with [] => Ok en | s :: t => bind (exec md call s en) (go t) end) body en)
            ((fix go (l : list stmt) (en : qenv) : res qenv := match l with [] => Ok en | s :: t => bind (qexec s en) (go t) end) body t)).
      { induction body as [|s body IB]; intros en t H; [exact H|]. apply rel_bind; [now apply qexec_ok|exact IB]. }
      induction n as [|n IN]; intros a en t H; [exact H|]. apply rel_bind; [apply L; now apply same_upd|]. intros. now apply IN.
    - apply rel_bind_same. intros a. rewrite ?(qeval_ok md _ en t H). apply rel_bind_same. intros b. rewrite ?(qget_ok _ en t H). apply rel_bind_same. intros ds.
      destruct (b <=? a); [exact I|]. destruct ds; [exact I|]. now apply same_upd, same_upd.
    - apply rel_bind_same. intros l. now apply same_upd.
    - apply rel_bind_same. intros z. rewrite ?(qget_ok _ en t H). apply rel_bind_same. intros l. now apply same_upd.
  Qed.
  Lemma qexec_list_ok l : forall en t, same en t -> rel (exec_list md call l en) (qexec_list l t).
  Proof. induction l as [|s l IH]; intros en t H; [exact H|]. cbn [exec_list qexec_list]. apply rel_bind; [now apply qexec_ok|exact IH]. Qed.
  Fixpoint qgets (xs : list string) (en : qenv) : res (list val) :=
    match xs with
    | [] => Ok []
    | x :: t => bind (qget x en) (fun v => bind (qgets t en) (fun vs => Ok (v :: vs)))
    end.
  Lemma qgets_ok xs en t : same en t -> qgets xs t = gets xs en.
  Proof. intros H. induction xs as [|x xs IH]; cbn [gets qgets]; [reflexivity|]. now rewrite IH, (qget_ok x en t H). Qed.
  Definition qrun_func (fn : func) (vs : list val) : res (list val * list val) :=
    if Nat.eqb (List.length (f_params fn)) (List.length vs) then
      bind (qexec_list (f_body fn) (of_list (combine (f_params fn) vs))) (fun en =>
      bind (qevals md (f_rets fn) en) (fun rs =>
      bind (qgets (f_params fn) en) (fun os => Ok (rs, os))))
    else Stuck.
  Lemma qrun_func_ok fn vs : qrun_func fn vs = run_func md call fn vs.
  Proof.
    unfold qrun_func, run_func. destruct (Nat.eqb _ _); [|reflexivity].
    pose proof (qexec_list_ok (f_body fn) _ _ (same_of_list (combine (f_params fn) vs))) as H.
    destruct (exec_list _ _ _ _) as [en| |], (qexec_list _ _) as [t| |]; cbn [rel] in H; try contradiction; cbn [bind]; try reflexivity.
    now rewrite (qevals_ok md _ en t H), (qgets_ok _ en t H).
  Qed.
End Exec.

(** ** Calls: the function table is a tree as well *)
Fixpoint qcall (md : mode) (base : string -> list val -> res (list val * list val)) (tbl : trie func) (fuel : nat) (f : string) (vs : list val)
    : res (list val * list val) :=
  match qlookup f tbl with
  | None => base f vs
  | Some fn => match fuel with
               | O => Stuck
               | S k => qrun_func md (qcall md base tbl k) fn vs
               end
  end.
Lemma qcall_ok md base qbase tbl t fuel : same tbl t -> (forall f vs, qbase f vs = base f vs) ->
  forall f vs, qcall md qbase t fuel f vs = call md base tbl fuel f vs.
Proof.
  intros T B. induction fuel as [|k IH]; intros f vs; cbn [qcall call]; rewrite <- T; (destruct (lookup f tbl) as [fn|]; [|apply B]); [reflexivity|].
  now apply qrun_func_ok.
Qed.
Definition quick_call (md : mode) (tbl : list (string * func)) (f : string) (vs : list val) := qcall md no_base (of_list tbl) 16 f vs.
Lemma quick_call_ok md tbl f vs : quick_call md tbl f vs = rust_call md tbl f vs.
Proof. apply qcall_ok; [apply same_of_list|reflexivity]. Qed.
