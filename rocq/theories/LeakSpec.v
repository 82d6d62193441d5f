(** What an observer of a whole program sees (C40): the events of the calls it
    makes, one after the other (TraceSpec.v says what the events of a call are).
    The programs are those of Machine.v and CurveSpec.v. *)
From Coq Require Import ZArith List String Bool.
From Verif Require Import Lang Fields Machine EdwardsSpec CurveSpec TraceSpec.
Import ListNotations.
Local Open Scope string_scope.
Local Open Scope Z_scope.

(** the call that an instruction makes, as in [Machine.step] *)
Definition call_of (c : instr) (s : state) : option (string * list val) :=
  let one i f := match nth_error (vars s) i with Some a => f a | None => None end in
  match c with
  | IConst c => Some (const_name c, [])
  | IUnpacked bs => Some ("F::unpacked", [VArr bs])
  | IRand ds => Some ("F::rand", [VArr ds])
  | IOp o i j => one i (fun a => one j (fun b => Some ("(&F)::" ++ op_name o ++ "(&F)", [VArr a; VArr b])))
  | IAssign o i j => one i (fun a => one j (fun b => Some ("F::" ++ op_name o ++ "_assign(&F)", [VArr a; VArr b])))
  | ISmall o i k => one i (fun a => Some ("F::small_" ++ small_name o, [VArr a; VInt k]))
  | ISmallAssign o i k => one i (fun a => Some ("F::small_" ++ small_name o ++ "_assign", [VArr a; VInt k]))
  | IUn u i => one i (fun a => Some (un_fresh u, [VArr a]))
  | IUnAssign u i => one i (fun a => Some (un_inplace u, [VArr a]))
  | INeg i => one i (fun a => Some ("F::neg", [VArr a]))
  | ILegendre i => one i (fun a => Some ("F::legendre", [VArr a]))
  | ISqrt i => one i (fun a => Some ("F::sqrt", [VArr a]))
  | INormalize i => one i (fun a => Some ("F::normalize", [VArr a]))
  | IPacked i => one i (fun a => Some ("F::packed", [VArr a]))
  | IEq i j => one i (fun a => one j (fun b => Some ("F::normalize_eq", [VArr a; VArr b])))
  | IBit i n => one i (fun a => Some ("F::bit", [VArr a; VInt n]))
  | IHex up i => one i (fun a => Some (if up then "F::UpperHex::fmt" else "F::LowerHex::fmt", [VArr a; VArr []]))
  end.
Definition call_trace (md : mode) tbl (c : option (string * list val)) : list event :=
  match c with Some (f, vs) => trace md tbl f vs | None => [] end.
Fixpoint program_trace (md : mode) (F : fld) (p : list instr) (s : state) : list event :=
  match p with
  | [] => []
  | c :: t => (call_trace md (fl_tbl F) (call_of c s) ++ match step md F c s with Ok s' => program_trace md F t s' | _ => [] end)%list
  end.

(** programs that differ in their data only: the bytes that are decoded (of the
    same number), the draws of the generator (of the same number) and the small
    integers; bit numbers are not data *)
Definition same_text (c d : instr) : Prop :=
  match c, d with
  | IUnpacked bs, IUnpacked bs' => List.length bs = List.length bs'
  | IRand ds, IRand ds' => List.length ds = List.length ds'
  | ISmall o i _, ISmall o' i' _ | ISmallAssign o i _, ISmallAssign o' i' _ => o = o' /\ i = i'
  | _, _ => c = d
  end.

(** likewise for points *)
Definition pcall_of (c : pinstr) (st : list ext) : option (string * list val) :=
  let one i f := match nth_error st i with Some P => f P | None => None end in
  match c with
  | PZero => Some ("P::zero", [])
  | PInit i x y => one i (fun P => Some ("P::init", coords P ++ [VArr x; VArr y])%list)
  | PAdd i j => one i (fun P => one j (fun Q => Some ("(&P)::add(&P)", coords P ++ coords Q)%list))
  | PAddAssign i j => one i (fun P => one j (fun Q => Some ("P::add_assign(P)", coords P ++ coords Q)%list))
  | PDouble i => one i (fun P => Some ("P::double", coords P))
  | PDoubled i => one i (fun P => Some ("P::doubled", coords P))
  | PTriple i => one i (fun P => Some ("P::triple", coords P))
  | PTripled i => one i (fun P => Some ("P::tripled", coords P))
  | PScalar i n => one i (fun P => Some ("P::scalar_mult", coords P ++ [VArr n])%list)
  | PLadder i n => one i (fun P => Some ("P::scalar_mult_normalized", coords P ++ [VArr n])%list)
  end.
Fixpoint point_program_trace (md : mode) (C : crv) (p : list pinstr) (st : list ext) : list event :=
  match p with
  | [] => []
  | c :: t => (call_trace md (cv_tbl C) (pcall_of c st) ++ match pstep md C c st with Ok st' => point_program_trace md C t st' | _ => [] end)%list
  end.
(** the coordinates given to init() and the scalars are data *)
Definition same_point_text (c d : pinstr) : Prop :=
  match c, d with
  | PInit i _ _, PInit j _ _ | PScalar i _, PScalar j _ | PLadder i _, PLadder j _ => i = j
  | _, _ => c = d
  end.
