(** Vocabulary of C47 and C48: the Rust types of the library's functions. *)
From Coq Require Import ZArith List String Bool.
From Verif Require Import Lang Fields Machine EdwardsSpec CurveSpec TraceSpec.
Import ListNotations.
Local Open Scope string_scope.
Local Open Scope Z_scope.
Local Open Scope list_scope.

Inductive ty :=
| TInt                        (* i64, i32, i16, i8 *)
| TBool                       (* bool *)
| TIndex                      (* usize: the number of a stored bit *)
| TBitLength | TByteLength    (* usize: what nbits() and nbytes() return *)
| TElem                       (* a field element or a mask: [i64; words] *)
| TBytes                      (* the array returned by packed() *)
| TBuffer                     (* &[u8], &mut [u8], long enough for an encoding *)
| TDraws                      (* a random generator good for one element *)
| TText.                      (* a formatter *)

Definition has_type (F : fld) (t : ty) (v : val) : Prop :=
  match t, v with
  | TInt, VInt z => - 2 ^ 63 <= z < 2 ^ 63
  | TBool, VInt z => z = 0 \/ z = 1
  | TIndex, VInt z => 0 <= z < Z.of_nat (fl_n F) * fl_w F
  | TBitLength, VInt z => z = nbits F
  | TByteLength, VInt z => z = Z.of_nat (fl_nb F)
  | TElem, VArr l => is_i64s F l
  | TBytes, VArr l => List.length l = fl_nb F /\ is_bytes l
  | TBuffer, VArr l => (fl_nb F <= List.length l)%nat /\ is_bytes l
  | TDraws, VArr l => (fl_n F <= List.length l)%nat
  | TText, VArr l => True
  | _, _ => False
  end.
(** What a call leaves in a parameter: a value of its type; buffers keep their
    length; generators and formatters advance. *)
Definition left_in (F : fld) (t : ty) (v v' : val) : Prop :=
  match t with
  | TDraws | TText => exists l, v' = VArr l
  | _ => has_type F t v' /\ same_shape v v'
  end.
Inductive left_all (F : fld) : list ty -> list val -> list val -> Prop :=
| left_nil : left_all F [] [] []
| left_cons t ts v vs v' vs' : left_in F t v v' -> left_all F ts vs vs' -> left_all F (t :: ts) (v :: vs) (v' :: vs').

(* the signatures in src/field/mod_e*.rs: parameters and results *)
Definition TPoint := [TElem; TElem; TElem; TElem].
Definition typed (s : list ty * list ty) (fs : list string) : list (string * (list ty * list ty)) := map (fun f => (f, s)) fs.
Definition field_signatures : list (string * (list ty * list ty)) :=
  typed ([TElem; TText], [])
    ["F::Debug::fmt"; "F::LowerHex::fmt"; "F::UpperHex::fmt"] ++
  typed ([TElem], [TBytes])
    ["F::packed"] ++
  typed ([TElem], [TElem])
    ["F::quartic_legendre"; "F::neg"; "F::squared"; "F::inverted"; "F::legendre"; "F::sqrt"] ++
  typed ([TElem; TElem], [])
    ["F::add_assign(&F)"; "F::add_assign(F)"; "F::div_assign(&F)"; "F::div_assign(F)";
     "F::sub_assign(&F)"; "F::sub_assign(F)"; "F::mul_assign(&F)"; "F::mul_assign(F)";
     "F::normalize_bitand"; "F::normalize_self_bitand"; "F::normalized_bitand"; "F::normalize_bitor";
     "F::normalize_self_bitor"; "F::normalized_bitor"] ++
  typed ([TElem; TInt], [])
    ["F::add_assign(i32)"; "F::add_assign(i16)"; "F::add_assign(i8)"; "F::sub_assign(i32)";
     "F::sub_assign(i16)"; "F::sub_assign(i8)"; "F::mul_assign(i32)"; "F::mul_assign(i16)";
     "F::mul_assign(i8)"; "F::small_add_assign"; "F::small_sub_assign";
     "F::small_mul_assign"] ++
  typed ([TElem; TElem], [TElem])
    ["(&F)::add(&F)"; "F::add(F)"; "(&F)::div(&F)"; "F::div(F)"; "(&F)::sub(&F)"; "F::sub(F)";
     "(&F)::mul(&F)"; "F::mul(F)"] ++
  typed ([TInt; TElem], [TElem])
    ["i32::add(&F)"; "i16::add(&F)"; "i8::add(&F)"; "i32::mul(&F)"; "i16::mul(&F)"; "i8::mul(&F)"] ++
  typed ([TElem; TInt], [TElem])
    ["(&F)::add(i32)"; "(&F)::add(i16)"; "(&F)::add(i8)"; "F::add(i32)"; "F::add(i16)"; "F::add(i8)";
     "F::sub(i32)"; "F::sub(i16)"; "F::sub(i8)"; "(&F)::sub(i32)"; "(&F)::sub(i16)"; "(&F)::sub(i8)";
     "(&F)::mul(i32)"; "(&F)::mul(i16)"; "(&F)::mul(i8)"; "F::mul(i32)"; "F::mul(i16)"; "F::mul(i8)";
     "F::small_add"; "F::small_sub"; "F::small_mul"] ++
  typed ([TElem; TBool], [])
    ["Mask::fill"; "F::fill"] ++
  typed ([TDraws], [TElem])
    ["F::rand"] ++
  typed ([TElem; TBuffer], [])
    ["F::unpack"; "F::pack"; "F::pack_normalized"] ++
  typed ([TBuffer], [TElem])
    ["F::unpacked"] ++
  typed ([], [TByteLength])
    ["F::nbytes"] ++
  typed ([TElem], [])
    ["F::normalize"; "F::square"; "F::invert"] ++
  typed ([TElem; TElem], [TBool])
    ["F::normalize_self_eq"; "F::normalize_eq"] ++
  typed ([TBool], [TElem])
    ["Mask::filled"; "F::filled"] ++
  typed ([], [TBitLength])
    ["F::nbits"] ++
  typed ([TElem; TIndex], [TBool])
    ["F::bit_normalized"; "F::bit"] ++
  typed ([], [TElem])
    ["F::zero"; "F::one"; "F::m_one"; "F::modulus"].
(* the signatures in src/curve/edwards.rs and src/curve/*.rs; a point is its four coordinates *)
Definition curve_signatures : list (string * (list ty * list ty)) :=
  typed (TPoint ++ TPoint, [])
    ["P::add_assign(&P)"; "P::add_assign(P)"; "P::normalized_bitor"] ++
  typed (TPoint ++ TPoint, TPoint)
    ["(&P)::add(&P)"; "P::add(P)"] ++
  typed (TPoint ++ [TElem], [])
    ["P::normalized_bitand"; "P::scalar_mult"; "P::scalar_mult_normalized"] ++
  typed ([], TPoint)
    ["P::zero"] ++
  typed (TPoint ++ [TElem; TElem], [])
    ["P::init"] ++
  typed (TPoint, [])
    ["P::double"; "P::triple"] ++
  typed (TPoint, TPoint)
    ["P::doubled"; "P::tripled"] ++
  typed ([], [TElem])
    ["C::d_val"].
Definition signatures := field_signatures ++ curve_signatures.

(** ** Programs that pass Rust's type checker and bounds checks *)
(** [n] field values exist so far; nothing is asked of the values *)
Fixpoint formed (F : fld) (p : list instr) (n : nat) : Prop :=
  match p with
  | [] => True
  | IConst _ :: t => formed F t (S n)
  | IUnpacked bs :: t => (fl_nb F <= List.length bs)%nat /\ is_bytes bs /\ formed F t (S n)
  | IRand ds :: t => (fl_n F <= List.length ds)%nat /\ formed F t (S n)
  | IOp _ i j :: t => (i < n)%nat /\ (j < n)%nat /\ formed F t (S n)
  | (IAssign _ i j | IEq i j) :: t => (i < n)%nat /\ (j < n)%nat /\ formed F t n
  | ISmall _ i k :: t => (i < n)%nat /\ is_i32 k /\ formed F t (S n)
  | ISmallAssign _ i k :: t => (i < n)%nat /\ is_i32 k /\ formed F t n
  | (IUn _ i | INeg i | ILegendre i | ISqrt i) :: t => (i < n)%nat /\ formed F t (S n)
  | (IUnAssign _ i | INormalize i | IPacked i | IHex _ i) :: t => (i < n)%nat /\ formed F t n
  | IBit i b :: t => (i < n)%nat /\ 0 <= b < Z.of_nat (fl_n F) * fl_w F /\ formed F t n
  end.
(** likewise with points: [n] exist so far *)
Fixpoint pformed (C : crv) (cs : list pinstr) (n : nat) : Prop :=
  match cs with
  | [] => True
  | PZero :: t => pformed C t (S n)
  | PInit i x y :: t => (i < n)%nat /\ is_i64s (cv_fld C) x /\ is_i64s (cv_fld C) y /\ pformed C t n
  | PAdd i j :: t => (i < n)%nat /\ (j < n)%nat /\ pformed C t (S n)
  | PAddAssign i j :: t => (i < n)%nat /\ (j < n)%nat /\ pformed C t n
  | (PDouble i | PTriple i) :: t => (i < n)%nat /\ pformed C t n
  | (PDoubled i | PTripled i) :: t => (i < n)%nat /\ pformed C t (S n)
  | (PScalar i k | PLadder i k) :: t => (i < n)%nat /\ is_i64s (cv_fld C) k /\ pformed C t n
  end.
