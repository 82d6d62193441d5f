(** MiniRust: the subset of Rust used by safecurves-rust, deeply embedded.

    This file is the reading of Rust on which everything else rests:
    - integers are mathematical integers; `+ - *` on i64 either panic on
      overflow (debug build) or wrap modulo 2^64 (release build);
      `<<` discards high bits, `>>` is arithmetic, `&` and `|` are bitwise in
      two's complement (Z.land / Z.lor);
    - an out-of-bounds index panics in both builds;
    - arguments are passed by value; an `&mut` argument is written back when
      the call returns (the borrow checker excludes aliasing);
    - all types are Copy, so `clone`, `&` and `*` are identities.
    It models no single /repo file; the programs are in Src_*.v. *)
From Coq Require Import ZArith List String Ascii Bool.
Import ListNotations.
Local Open Scope Z_scope.

(** Build mode: overflow checks on (cargo build / test) or off (--release). *)
Inductive mode := Debug | Release.

(** Result of running code.  [Stuck] means the program is not well formed
    (unbound name, wrong type, missing function, out of fuel): it is never the
    result of real Rust, and every theorem shows it does not occur. *)
Inductive res (A : Type) := Ok (a : A) | Panic | Stuck.
Arguments Ok {A}. Arguments Panic {A}. Arguments Stuck {A}.

Definition bind {A B} (r : res A) (f : A -> res B) : res B :=
  match r with Ok a => f a | Panic => Panic | Stuck => Stuck end.

Inductive val := VInt (z : Z) | VArr (l : list Z).

Inductive ity := U8 | I32 | I64.

Inductive expr :=
| EInt (z : Z)                  (* integer literal or integer constant *)
| ELit (l : list Z)             (* constant array (a field constant) *)
| EVar (x : string)
| EIdx (a i : expr)             (* a.0[i], bytes[i] *)
| EAdd (a b : expr) | ESub (a b : expr) | EMul (a b : expr)      (* i64 *)
| EAnd (a b : expr) | EOr (a b : expr)
| EShl (a b : expr) | EShr (a b : expr)
| EEq (a b : expr) | ENot (a : expr)                             (* bool as 0/1 *)
| EUSub (a b : expr) | EUDiv (a b : expr) | EURem (a b : expr)   (* usize *)
| ECast (t : ity) (a : expr)    (* a as t, i64::from(a) *)
| ERep (a : expr) (n : nat).    (* [a; n] *)

Inductive arg := AVal (e : expr) | AMut (x : string).

Inductive stmt :=
| SLet (x : string) (e : expr)                       (* let x = e;  x = e; *)
| SSet (a : string) (i : expr) (e : expr)            (* a.0[i] = e; *)
| SCall (ds : list string) (f : string) (args : list arg)  (* let ds = f(args); *)
| SFor (x : string) (lo hi : expr) (body : list stmt)(* for x in lo..hi { body } *)
| SGenRange (x rng : string) (lo hi : expr)          (* let x = rng.gen_range(lo, hi); *)
| SPushStr (f : string) (s : string)                 (* write!(f, "s") *)
| SPushHex (f : string) (upper pad2 : bool) (bits : Z) (e : expr). (* write!(f, "{:x}") etc. *)

Record func := mkfunc { f_params : list string; f_body : list stmt; f_rets : list expr }.

(** ** Machine integers *)

(* two's complement reading of the low [b] bits *)
Definition wrap (b z : Z) : Z :=
  let m := z mod 2 ^ b in if m <? 2 ^ (b - 1) then m else m - 2 ^ b.

Definition in_i64 (z : Z) : bool := (- 2 ^ 63 <=? z) && (z <? 2 ^ 63).

(* overflow behaviour of i64 + - * *)
Definition arith (md : mode) (z : Z) : res Z :=
  if in_i64 z then Ok z else match md with Debug => Panic | Release => Ok (wrap 64 z) end.

(* overflow behaviour of usize - *)
Definition uarith (md : mode) (z : Z) : res Z :=
  if (0 <=? z) && (z <? 2 ^ 64) then Ok z
  else match md with Debug => Panic | Release => Ok (z mod 2 ^ 64) end.

(* shift amounts outside 0..63 panic in debug and are masked in release *)
Definition shamt (md : mode) (n : Z) : res Z :=
  if (0 <=? n) && (n <? 64) then Ok n
  else match md with Debug => Panic | Release => Ok (n mod 64) end.

Definition cast (t : ity) (z : Z) : Z :=
  match t with U8 => z mod 256 | I32 => wrap 32 z | I64 => wrap 64 z end.

(* list access by machine index: None when out of bounds *)
Definition znth (l : list Z) (i : Z) : option Z :=
  if i <? 0 then None else nth_error l (Z.to_nat i).

Fixpoint upd_nth (l : list Z) (n : nat) (v : Z) : option (list Z) :=
  match l, n with
  | [], _ => None
  | _ :: t, O => Some (v :: t)
  | h :: t, S k => match upd_nth t k v with Some t' => Some (h :: t') | None => None end
  end.

Definition zset (l : list Z) (i v : Z) : option (list Z) :=
  if i <? 0 then None else upd_nth l (Z.to_nat i) v.

(** ** Environments: a finite map from variables to values *)
Definition env := list (string * val).

Fixpoint lookup {A} (x : string) (e : list (string * A)) : option A :=
  match e with
  | [] => None
  | (y, v) :: t => if String.eqb x y then Some v else lookup x t
  end.

Fixpoint upd {A} (x : string) (v : A) (e : list (string * A)) : list (string * A) :=
  match e with
  | [] => [(x, v)]
  | (y, w) :: t => if String.eqb x y then (x, v) :: t else (y, w) :: upd x v t
  end.

Definition get (x : string) (e : env) : res val :=
  match lookup x e with Some v => Ok v | None => Stuck end.

Definition as_int (v : val) : res Z := match v with VInt z => Ok z | _ => Stuck end.
Definition as_arr (v : val) : res (list Z) := match v with VArr l => Ok l | _ => Stuck end.

(** ** Expressions *)
Section Eval.
  Variable md : mode.

  Fixpoint eval (e : expr) (en : env) : res val :=
    let int2 a b (f : Z -> Z -> res Z) :=
      bind (bind (eval a en) as_int) (fun x =>
      bind (bind (eval b en) as_int) (fun y =>
      bind (f x y) (fun z => Ok (VInt z)))) in
    match e with
    | EInt z => Ok (VInt z)
    | ELit l => Ok (VArr l)
    | EVar x => get x en
    | EIdx a i =>
        bind (bind (eval a en) as_arr) (fun l =>
        bind (bind (eval i en) as_int) (fun j =>
        match znth l j with Some v => Ok (VInt v) | None => Panic end))
    | EAdd a b => int2 a b (fun x y => arith md (x + y))
    | ESub a b => int2 a b (fun x y => arith md (x - y))
    | EMul a b => int2 a b (fun x y => arith md (x * y))
    | EAnd a b => int2 a b (fun x y => Ok (Z.land x y))
    | EOr a b => int2 a b (fun x y => Ok (Z.lor x y))
    | EShl a b => int2 a b (fun x y => bind (shamt md y) (fun n => Ok (wrap 64 (Z.shiftl x n))))
    | EShr a b => int2 a b (fun x y => bind (shamt md y) (fun n => Ok (Z.shiftr x n)))
    | EEq a b => int2 a b (fun x y => Ok (if x =? y then 1 else 0))
    | ENot a => bind (bind (eval a en) as_int) (fun x => Ok (VInt (if x =? 0 then 1 else 0)))
    | EUSub a b => int2 a b (fun x y => uarith md (x - y))
    | EUDiv a b => int2 a b (fun x y => if y =? 0 then Panic else Ok (x / y))
    | EURem a b => int2 a b (fun x y => if y =? 0 then Panic else Ok (x mod y))
    | ECast t a => bind (bind (eval a en) as_int) (fun x => Ok (VInt (cast t x)))
    | ERep a n => bind (bind (eval a en) as_int) (fun x => Ok (VArr (repeat x n)))
    end.

  Fixpoint evals (es : list expr) (en : env) : res (list val) :=
    match es with
    | [] => Ok []
    | e :: t => bind (eval e en) (fun v => bind (evals t en) (fun vs => Ok (v :: vs)))
    end.
End Eval.

(** ** Formatting: `{:x}` / `{:X}` / `{:02x}` of the [bits]-bit two's complement
    pattern, as character codes (core::fmt). *)
Definition hex_digit (upper : bool) (d : Z) : Z :=
  if d <? 10 then 48 + d else (if upper then 55 else 87) + d.

Fixpoint hex_digits (upper : bool) (n : nat) (z : Z) : list Z :=   (* exactly n digits *)
  match n with
  | O => []
  | S k => hex_digits upper k (z / 16) ++ [hex_digit upper (z mod 16)]
  end.

Fixpoint strip0 (l : list Z) : list Z :=      (* drop leading '0's, keep one digit *)
  match l with
  | 48 :: ((_ :: _) as t) => strip0 t
  | _ => l
  end.

Definition hex_fmt (upper pad2 : bool) (bits z : Z) : list Z :=
  let l := strip0 (hex_digits upper (Z.to_nat (bits / 4)) (z mod 2 ^ bits)) in
  if pad2 then match l with [d] => [48; d] | _ => l end else l.

Definition codes (s : string) : list Z :=
  map (fun c => Z.of_nat (nat_of_ascii c)) (list_ascii_of_string s).

(** ** Statements.  [call f vs] runs function [f]; it returns the results and
    the final values of the parameters (for write-back of `&mut` arguments). *)
Section Exec.
  Variable md : mode.
  Variable call : string -> list val -> res (list val * list val).

  Fixpoint eval_args (l : list arg) (en : env) : res (list val) :=
    match l with
    | [] => Ok []
    | a :: t =>
        bind (match a with AVal e => eval md e en | AMut x => get x en end) (fun v =>
        bind (eval_args t en) (fun vs => Ok (v :: vs)))
    end.

  Fixpoint write_back (l : list arg) (outs : list val) (en : env) : res env :=
    match l, outs with
    | [], [] => Ok en
    | AVal _ :: t, _ :: vs => write_back t vs en
    | AMut x :: t, v :: vs => write_back t vs (upd x v en)
    | _, _ => Stuck
    end.

  Fixpoint bind_rets (ds : list string) (rets : list val) (en : env) : res env :=
    match ds, rets with
    | [], _ => Ok en                    (* results not used *)
    | d :: t, v :: vs => bind_rets t vs (upd d v en)
    | _ :: _, [] => Stuck
    end.

  Fixpoint exec (s : stmt) (en : env) {struct s} : res env :=
    let exec_list := fix go (l : list stmt) (en : env) : res env :=
      match l with [] => Ok en | s :: t => bind (exec s en) (go t) end in
    match s with
    | SLet x e => bind (eval md e en) (fun v => Ok (upd x v en))
    | SSet a i e =>
        bind (bind (eval md e en) as_int) (fun v =>
        bind (bind (eval md i en) as_int) (fun j =>
        bind (bind (get a en) as_arr) (fun l =>
        match zset l j v with Some l' => Ok (upd a (VArr l') en) | None => Panic end)))
    | SCall ds f args =>
        bind (eval_args args en) (fun vs =>
        bind (call f vs) (fun ro =>
        bind (write_back args (snd ro) en) (fun en' => bind_rets ds (fst ro) en')))
    | SFor x lo hi body =>
        bind (bind (eval md lo en) as_int) (fun a =>
        bind (bind (eval md hi en) as_int) (fun b =>
        (fix loop (n : nat) (i : Z) (en : env) : res env :=
           match n with
           | O => Ok en
           | S k => bind (exec_list body (upd x (VInt i) en)) (loop k (i + 1))
           end) (Z.to_nat (b - a)) a en))
    | SGenRange x rng lo hi =>
        (* the generator is an arbitrary stream of draws; gen_range(lo,hi) asserts
           lo < hi and returns some value of [lo,hi) determined by the next draw *)
        bind (bind (eval md lo en) as_int) (fun a =>
        bind (bind (eval md hi en) as_int) (fun b =>
        bind (bind (get rng en) as_arr) (fun ds =>
        if b <=? a then Panic else
        match ds with
        | [] => Stuck
        | d :: t => Ok (upd x (VInt (a + d mod (b - a))) (upd rng (VArr t) en))
        end)))
    | SPushStr f s =>
        bind (bind (get f en) as_arr) (fun l => Ok (upd f (VArr (l ++ codes s)) en))
    | SPushHex f upper pad2 bits e =>
        bind (bind (eval md e en) as_int) (fun z =>
        bind (bind (get f en) as_arr) (fun l =>
        Ok (upd f (VArr (l ++ hex_fmt upper pad2 bits z)) en)))
    end.

  Fixpoint exec_list (l : list stmt) (en : env) : res env :=
    match l with [] => Ok en | s :: t => bind (exec s en) (exec_list t) end.

  Fixpoint gets (xs : list string) (en : env) : res (list val) :=
    match xs with
    | [] => Ok []
    | x :: t => bind (get x en) (fun v => bind (gets t en) (fun vs => Ok (v :: vs)))
    end.

  (* run a function body: results and final parameter values *)
  Definition run_func (fn : func) (vs : list val) : res (list val * list val) :=
    if Nat.eqb (List.length (f_params fn)) (List.length vs) then
      bind (exec_list (f_body fn) (combine (f_params fn) vs)) (fun en =>
      bind (evals md (f_rets fn) en) (fun rs =>
      bind (gets (f_params fn) en) (fun os => Ok (rs, os))))
    else Stuck.
End Exec.

(** ** Programs: a function table over a base of externally given functions
    (none for the library itself; an abstract field for the curve code).
    [fuel] bounds the call depth; the library has no recursion. *)
Fixpoint call (md : mode) (base : string -> list val -> res (list val * list val))
    (tbl : list (string * func)) (fuel : nat) (f : string) (vs : list val)
    : res (list val * list val) :=
  match lookup f tbl with
  | None => base f vs
  | Some fn => match fuel with
               | O => Stuck
               | S k => run_func md (call md base tbl k) fn vs
               end
  end.

Definition no_base (f : string) (vs : list val) : res (list val * list val) := Stuck.

(** Calling a library function: the static call depth of the library is below 16. *)
Definition rust_call (md : mode) (tbl : list (string * func)) (f : string) (vs : list val) :=
  call md no_base tbl 16 f vs.

(** ** Notations used by the generated files *)
Module LangNotations.
  Coercion EVar : string >-> expr.
  Declare Scope rust_scope.
  Delimit Scope rust_scope with rust.
  Notation "# n" := (EInt n%Z) (at level 0, n at level 0, format "# n").
  Notation "a .[ i ]" := (EIdx a i) (at level 2, left associativity, format "a .[ i ]").
  Notation "a .+ b" := (EAdd a b) (at level 50, left associativity).
  Notation "a .- b" := (ESub a b) (at level 50, left associativity).
  Notation "a .* b" := (EMul a b) (at level 40, left associativity).
  Notation "a .& b" := (EAnd a b) (at level 54, left associativity).
  Notation "a .| b" := (EOr a b) (at level 56, left associativity).
  Notation "a .<< b" := (EShl a b) (at level 52, left associativity).
  Notation "a .>> b" := (EShr a b) (at level 52, left associativity).
  Notation "x <- e" := (SLet x e) (at level 70).
End LangNotations.
