(** Vocabulary of C40: what an observer of the execution sees.  The evaluator of
    Lang.v, instrumented: next to its result every run yields the list of the
    operations performed, with the array positions accessed, shift distances,
    operands of usize arithmetic (division takes operand-dependent time), calls,
    loop iterations, bounds of random draws and lengths of text written.
    Operand values of i64 arithmetic are not observable.  [erasure] in Trace.v
    shows that the results are those of Lang.v.  Which machine instructions the
    compiler chooses, and what the `rand` and `core::fmt` crates do inside a
    draw or a write, is not modelled. *)
From Coq Require Import ZArith List String Bool.
From Verif Require Import Lang.
Import ListNotations.
Local Open Scope string_scope.
Local Open Scope Z_scope.
Local Open Scope list_scope.

Inductive event :=
| VRead (i : Z) | VWrite (i : Z)              (* array element i *)
| VOp (o : string)                            (* an i64 or bool operation *)
| VShift (o : string) (n : Z)                 (* a shift by n *)
| VUsize (o : string) (x y : Z)               (* usize arithmetic on x and y *)
| VFill (n : nat)                             (* [x; n] *)
| VMove                                       (* an assignment *)
| VCall (f : string) | VReturn
| VFor (n : nat) | VIter                      (* a loop of n iterations; one of them begins *)
| VDraw (lo hi : Z)                           (* gen_range(lo, hi) *)
| VText (n : nat).                            (* n characters are written *)

Definition out (A : Type) : Type := list event * res A.
Definition lift {A} (r : res A) : out A := ([], r).
Definition tick {A} (e : event) (r : res A) : out A := ([e], r).
Definition obind {A B} (m : out A) (f : A -> out B) : out B :=
  match snd m with
  | Ok a => let r := f a in (fst m ++ fst r, snd r)
  | Panic => (fst m, Panic)
  | Stuck => (fst m, Stuck)
  end.

Section Eval.
  Variable md : mode.
  Definition oint (m : out val) : out Z := obind m (fun v => lift (as_int v)).
  Definition oarr (m : out val) : out (list Z) := obind m (fun v => lift (as_arr v)).

  Fixpoint teval (e : expr) (en : env) : out val :=
    let int2 a b (f : Z -> Z -> out Z) :=
      obind (oint (teval a en)) (fun x => obind (oint (teval b en)) (fun y => obind (f x y) (fun z => lift (Ok (VInt z))))) in
    match e with
    | EInt z => lift (Ok (VInt z))
    | ELit l => lift (Ok (VArr l))
    | EVar x => lift (get x en)
    | EIdx a i => obind (oarr (teval a en)) (fun l => obind (oint (teval i en)) (fun j =>
        tick (VRead j) (match znth l j with Some v => Ok (VInt v) | None => Panic end)))
    | EAdd a b => int2 a b (fun x y => tick (VOp "+") (arith md (x + y)))
    | ESub a b => int2 a b (fun x y => tick (VOp "-") (arith md (x - y)))
    | EMul a b => int2 a b (fun x y => tick (VOp "*") (arith md (x * y)))
    | EAnd a b => int2 a b (fun x y => tick (VOp "&") (Ok (Z.land x y)))
    | EOr a b => int2 a b (fun x y => tick (VOp "|") (Ok (Z.lor x y)))
    | EShl a b => int2 a b (fun x y => tick (VShift "<<" y) (bind (shamt md y) (fun n => Ok (wrap 64 (Z.shiftl x n)))))
    | EShr a b => int2 a b (fun x y => tick (VShift ">>" y) (bind (shamt md y) (fun n => Ok (Z.shiftr x n))))
    | EEq a b => int2 a b (fun x y => tick (VOp "==") (Ok (if x =? y then 1 else 0)))
    | ENot a => obind (oint (teval a en)) (fun x => tick (VOp "!") (Ok (VInt (if x =? 0 then 1 else 0))))
    | EUSub a b => int2 a b (fun x y => tick (VUsize "-" x y) (uarith md (x - y)))
    | EUDiv a b => int2 a b (fun x y => tick (VUsize "/" x y) (if y =? 0 then Panic else Ok (x / y)))
    | EURem a b => int2 a b (fun x y => tick (VUsize "%" x y) (if y =? 0 then Panic else Ok (x mod y)))
    | ECast t a => obind (oint (teval a en)) (fun x => tick (VOp "as") (Ok (VInt (cast t x))))
    | ERep a n => obind (oint (teval a en)) (fun x => tick (VFill n) (Ok (VArr (repeat x n))))
    end.
  Fixpoint tevals (es : list expr) (en : env) : out (list val) :=
    match es with
    | [] => lift (Ok [])
    | e :: t => obind (teval e en) (fun v => obind (tevals t en) (fun vs => lift (Ok (v :: vs))))
    end.
End Eval.

Section Exec.
  Variable md : mode.
  Variable tcall : string -> list val -> out (list val * list val).
  Fixpoint teval_args (l : list arg) (en : env) : out (list val) :=
    match l with
    | [] => lift (Ok [])
    | a :: t => obind (match a with AVal e => teval md e en | AMut x => lift (get x en) end) (fun v =>
        obind (teval_args t en) (fun vs => lift (Ok (v :: vs))))
    end.
  Fixpoint texec (s : stmt) (en : env) {struct s} : out env :=
    let texec_list := fix go (l : list stmt) (en : env) : out env :=
      match l with [] => lift (Ok en) | s :: t => obind (texec s en) (go t) end in
    match s with
    | SLet x e => obind (teval md e en) (fun v => tick VMove (Ok (upd x v en)))
    | SSet a i e =>
        obind (oint (teval md e en)) (fun v => obind (oint (teval md i en)) (fun j =>
        obind (oarr (lift (get a en))) (fun l =>
        tick (VWrite j) (match zset l j v with Some l' => Ok (upd a (VArr l') en) | None => Panic end))))
    | SCall ds f args =>
        obind (teval_args args en) (fun vs => obind (tick (VCall f) (Ok tt)) (fun _ => obind (tcall f vs) (fun ro => obind (tick VReturn (Ok tt)) (fun _ =>
        obind (lift (write_back args (snd ro) en)) (fun en' => lift (bind_rets ds (fst ro) en'))))))
    | SFor x lo hi body =>
        obind (oint (teval md lo en)) (fun a => obind (oint (teval md hi en)) (fun b =>
        obind (tick (VFor (Z.to_nat (b - a))) (Ok tt)) (fun _ =>
        (fix loop (n : nat) (i : Z) (en : env) : out env :=
           match n with
           | O => lift (Ok en)
           | S k => obind (tick VIter (Ok tt)) (fun _ => obind (texec_list body (upd x (VInt i) en)) (loop k (i + 1)))
           end) (Z.to_nat (b - a)) a en)))
    | SGenRange x rng lo hi =>
        obind (oint (teval md lo en)) (fun a => obind (oint (teval md hi en)) (fun b => obind (oarr (lift (get rng en))) (fun ds =>
        tick (VDraw a b) (if b <=? a then Panic else
        match ds with [] => Stuck | d :: t => Ok (upd x (VInt (a + d mod (b - a))) (upd rng (VArr t) en)) end))))
    | SPushStr f s =>
        obind (oarr (lift (get f en))) (fun l => tick (VText (List.length (codes s))) (Ok (upd f (VArr (l ++ codes s)) en)))
    | SPushHex f upper pad2 bits e =>
        obind (oint (teval md e en)) (fun z => obind (oarr (lift (get f en))) (fun l =>
        tick (VText (List.length (hex_fmt upper pad2 bits z))) (Ok (upd f (VArr (l ++ hex_fmt upper pad2 bits z)) en))))
    end.
  Fixpoint texec_list (l : list stmt) (en : env) : out env :=
    match l with [] => lift (Ok en) | s :: t => obind (texec s en) (texec_list t) end.
  Definition trun_func (fn : func) (vs : list val) : out (list val * list val) :=
    if Nat.eqb (List.length (f_params fn)) (List.length vs) then
      obind (texec_list (f_body fn) (combine (f_params fn) vs)) (fun en =>
      obind (tevals md (f_rets fn) en) (fun rs => obind (lift (gets (f_params fn) en)) (fun os => lift (Ok (rs, os)))))
    else lift Stuck.
End Exec.

Fixpoint tcall (md : mode) (tbl : list (string * func)) (fuel : nat) (f : string) (vs : list val) : out (list val * list val) :=
  match lookup f tbl with
  | None => lift Stuck
  | Some fn => match fuel with O => lift Stuck | S k => trun_func md (tcall md tbl k) fn vs end
  end.
(** what is seen of running [f] on [vs], and how it ends *)
Definition traced (md : mode) (tbl : list (string * func)) (f : string) (vs : list val) := tcall md tbl 16 f vs.
Definition trace md tbl f vs : list event := fst (traced md tbl f vs).

(** ** Inputs the observer is allowed to tell apart only by their shape *)
Definition same_shape (v w : val) : Prop :=
  match v, w with VInt _, VInt _ => True | VArr l, VArr k => List.length l = List.length k | _, _ => False end.
(** [f] called twice on arguments of the same shapes, and, for the two functions
    that take a bit number, with the same bit number *)
Definition takes_bit_number (f : string) : Prop := f = "F::bit" \/ f = "F::bit_normalized".
Definition alike (f : string) (vs ws : list val) : Prop :=
  Forall2 same_shape vs ws /\ (takes_bit_number f -> nth_error vs 1 = nth_error ws 1).
Definition starts {A} (t u : list A) : Prop := exists r, u = t ++ r.
