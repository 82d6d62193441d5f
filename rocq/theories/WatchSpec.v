(** Observers inserted into a program (C67): normalize, packed, normalize_eq,
    bit and the hexadecimal formats, which take `&mut self` (or compute on a
    copy) and so may rewrite the variables they look at.  The instructions are
    those of Machine.v. *)
From Coq Require Import ZArith List String Bool.
From Verif Require Import Lang Fields Machine.
Import ListNotations.

Definition is_observer (c : instr) : bool :=
  match c with INormalize _ | IPacked _ | IEq _ _ | IBit _ _ | IHex _ _ => true | _ => false end.
(** does it produce an observation? *)
Definition observes (c : instr) : bool := match c with IPacked _ | IEq _ _ | IBit _ _ | IHex _ _ => true | _ => false end.
(** a program some of whose instructions are marked as extra: all of it, and
    without the extra ones *)
Definition whole (p : list (instr * bool)) : list instr := map fst p.
Definition plain (p : list (instr * bool)) : list instr := map fst (filter (fun cx => negb (snd cx)) p).
(** for each observation of the whole program: is it an extra one? *)
Definition marks (p : list (instr * bool)) : list bool := map snd (filter (fun cx => observes (fst cx)) p).
(** the observations that are not extra *)
Fixpoint kept (ms : list bool) (l : list val) : list val :=
  match ms, l with x :: ms, v :: l => if x then kept ms l else v :: kept ms l | _, _ => [] end.
(** the extra instructions are observers, of variables that can be normalised
    at that point of the plain program (see [tracks]) *)
Fixpoint extras_ok (F : fld) (p : list (instr * bool)) (m : list shape) : Prop :=
  match p with
  | [] => True
  | (c, true) :: r => is_observer c = true /\ tracks F c m <> None /\ extras_ok F r m
  | (c, false) :: r => exists m1, tracks F c m = Some m1 /\ extras_ok F r m1
  end.
