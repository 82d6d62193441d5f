(** Storing and reloading (C66): a program is stopped at chosen points, every
    variable is written out with packed() and read back with unpacked(), and
    the program goes on, perhaps in another build.  The methods themselves are
    the generated Src_*.v files; the stopping is the caller's doing. *)
From Coq Require Import ZArith List String Bool.
From Verif Require Import Lang Fields Machine.
Import ListNotations.
Local Open Scope string_scope.
Local Open Scope Z_scope.

(** F::unpacked(&a.packed()), written by one build and read by another
    (src/field/mod_e255_19.rs:137-141 and :885-889, and the same methods of the other fields) *)
Definition reload (wr rd : mode) (F : fld) (a : list Z) : res (list Z) :=
  bind (rust_call wr (fl_tbl F) "F::packed" [VArr a]) (fun ro =>
    match fst ro with
    | [VArr bs] => bind (rust_call rd (fl_tbl F) "F::unpacked" [VArr bs]) (fun ro' =>
        match fst ro' with [VArr b] => Ok b | _ => Stuck end)
    | _ => Stuck end).
Fixpoint reload_all (wr rd : mode) (F : fld) (l : list (list Z)) : res (list (list Z)) :=
  match l with
  | [] => Ok []
  | a :: r => bind (reload wr rd F a) (fun b => bind (reload_all wr rd F r) (fun bs => Ok (b :: bs)))
  end.
(** the parts before each stop, each with its build, then the last part [q] *)
Fixpoint resume (F : fld) (ps : list (mode * list instr)) (last : mode) (q : list instr) (s : state) : res state :=
  match ps with
  | [] => run last F q s
  | (md, p) :: r =>
      bind (run md F p s) (fun s1 =>
        bind (reload_all md (match r with [] => last | (md', _) :: _ => md' end) F (vars s1)) (fun l =>
          resume F r last q (mkst l (seen s1))))
  end.
(** at every stop each variable can be normalised, hence encoded (C04) *)
Fixpoint storable (F : fld) (ps : list (list instr)) (m : list shape) : Prop :=
  match ps with
  | [] => True
  | p :: r => exists m1, tracks_all F p m = Some m1 /\ Forall (fun s => is_normal s = true) m1 /\ storable F r m1
  end.
