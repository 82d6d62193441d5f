(** Histories: programs that call the library any number of times, feeding
    results back in any way.  A program works on a growing list of variables
    holding field values and produces a list of observations (encodings, truth
    values, text).  [run] executes it with the library, [ideal] with integers
    modulo the prime.  The methods themselves are the generated Src_*.v files. *)
From Coq Require Import ZArith List String Bool.
From Verif Require Import Lang Fields.
Import ListNotations.
Local Open Scope string_scope.
Local Open Scope Z_scope.

Inductive const := Zero | One | MinusOne | Modulus.
Inductive binop := Add | Sub | Mul | Div.
Inductive smallop := SmallAdd | SmallSub | SmallMul.
Inductive unop := Square | Invert.

(** [i], [j] number the variables from the oldest *)
Inductive instr :=
| IConst (c : const)                      (* let x = F::zero(); etc. *)
| IUnpacked (bs : list Z)                 (* let x = F::unpacked(bs); *)
| IRand (ds : list Z)                     (* let x = F::rand(rng); the generator yields ds *)
| IOp (o : binop) (i j : nat)             (* let x = &xi + &xj; *)
| IAssign (o : binop) (i j : nat)         (* xi += &xj; *)
| ISmall (o : smallop) (i : nat) (k : Z)  (* let x = xi.small_add(k); *)
| ISmallAssign (o : smallop) (i : nat) (k : Z)
| IUn (u : unop) (i : nat)                (* let x = xi.squared(); *)
| IUnAssign (u : unop) (i : nat)          (* xi.square(); *)
| INeg (i : nat)                          (* let x = -&xi; *)
| ILegendre (i : nat)                     (* let x = xi.legendre(); *)
| ISqrt (i : nat)                         (* let x = xi.sqrt(); *)
| INormalize (i : nat)                    (* xi.normalize(); *)
| IPacked (i : nat)                       (* observe xi.packed() *)
| IEq (i j : nat)                         (* observe xi.normalize_eq(&mut xj) *)
| IBit (i : nat) (n : Z)                  (* observe xi.bit(n) *)
| IHex (upper : bool) (i : nat).          (* observe format!("{:x}", xi) *)

Definition const_name (c : const) : string :=
  match c with Zero => "F::zero" | One => "F::one" | MinusOne => "F::m_one" | Modulus => "F::modulus" end.
Definition op_name (o : binop) : string := match o with Add => "add" | Sub => "sub" | Mul => "mul" | Div => "div" end.
Definition small_name (o : smallop) : string := match o with SmallAdd => "add" | SmallSub => "sub" | SmallMul => "mul" end.
Definition un_inplace (u : unop) : string := match u with Square => "F::square" | Invert => "F::invert" end.
Definition un_fresh (u : unop) : string := match u with Square => "F::squared" | Invert => "F::inverted" end.

(** ** Execution with the library *)
Record state := mkst { vars : list (list Z); seen : list val }.
Definition var (s : state) (i : nat) : res (list Z) :=
  match nth_error (vars s) i with Some a => Ok a | None => Stuck end.
Fixpoint replace {A} (l : list A) (i : nat) (x : A) : list A :=
  match l, i with [], _ => [] | _ :: t, O => x :: t | h :: t, S k => h :: replace t k x end.

(** what to do with the outcome of a call: new variable, changed variable, observation *)
Definition new_var (s : state) (r : res (list val * list val)) : res state :=
  bind r (fun ro => match fst ro with [VArr a] => Ok (mkst (vars s ++ [a])%list (seen s)) | _ => Stuck end).
Definition set_var (s : state) (i : nat) (r : res (list val * list val)) : res state :=
  bind r (fun ro => match snd ro with VArr a :: _ => Ok (mkst (replace (vars s) i a) (seen s)) | _ => Stuck end).
(* &mut self, and the result is observed *)
Definition see (s : state) (i : nat) (r : res (list val * list val)) : res state :=
  bind r (fun ro => match ro with
    | ([v], VArr a :: _) => Ok (mkst (replace (vars s) i a) (seen s ++ [v])%list) | _ => Stuck end).
(* &mut self and &mut other *)
Definition see2 (s : state) (i j : nat) (r : res (list val * list val)) : res state :=
  bind r (fun ro => match ro with
    | ([v], [VArr a; VArr b]) => Ok (mkst (replace (replace (vars s) i a) j b) (seen s ++ [v])%list) | _ => Stuck end).
(* the text appended to an empty formatter *)
Definition see_text (s : state) (r : res (list val * list val)) : res state :=
  bind r (fun ro => match ro with
    | ([], [_; VArr t]) => Ok (mkst (vars s) (seen s ++ [VArr t])%list) | _ => Stuck end).

Section Run.
  Variables (md : mode) (F : fld).
  Let lib := rust_call md (fl_tbl F).
  Definition step (c : instr) (s : state) : res state :=
    match c with
    | IConst c => new_var s (lib (const_name c) [])
    | IUnpacked bs => new_var s (lib "F::unpacked" [VArr bs])
    | IRand ds => new_var s (lib "F::rand" [VArr ds])
    | IOp o i j => bind (var s i) (fun a => bind (var s j) (fun b =>
        new_var s (lib ("(&F)::" ++ op_name o ++ "(&F)") [VArr a; VArr b])))
    | IAssign o i j => bind (var s i) (fun a => bind (var s j) (fun b =>
        set_var s i (lib ("F::" ++ op_name o ++ "_assign(&F)") [VArr a; VArr b])))
    | ISmall o i k => bind (var s i) (fun a => new_var s (lib ("F::small_" ++ small_name o) [VArr a; VInt k]))
    | ISmallAssign o i k => bind (var s i) (fun a =>
        set_var s i (lib ("F::small_" ++ small_name o ++ "_assign") [VArr a; VInt k]))
    | IUn u i => bind (var s i) (fun a => new_var s (lib (un_fresh u) [VArr a]))
    | IUnAssign u i => bind (var s i) (fun a => set_var s i (lib (un_inplace u) [VArr a]))
    | INeg i => bind (var s i) (fun a => new_var s (lib "F::neg" [VArr a]))
    | ILegendre i => bind (var s i) (fun a => new_var s (lib "F::legendre" [VArr a]))
    | ISqrt i => bind (var s i) (fun a => new_var s (lib "F::sqrt" [VArr a]))
    | INormalize i => bind (var s i) (fun a => set_var s i (lib "F::normalize" [VArr a]))
    | IPacked i => bind (var s i) (fun a => see s i (lib "F::packed" [VArr a]))
    | IEq i j => bind (var s i) (fun a => bind (var s j) (fun b =>
        see2 s i j (lib "F::normalize_eq" [VArr a; VArr b])))
    | IBit i n => bind (var s i) (fun a => see s i (lib "F::bit" [VArr a; VInt n]))
    | IHex up i => bind (var s i) (fun a =>
        see_text s (lib (if up then "F::UpperHex::fmt" else "F::LowerHex::fmt") [VArr a; VArr []]))
    end.
  Fixpoint run (p : list instr) (s : state) : res state :=
    match p with [] => Ok s | c :: t => bind (step c s) (run t) end.
End Run.
Definition start : state := mkst [] [].

(** ** Which programs are allowed (C25) *)
(** How a variable may be used: [Ready] for everything, [Wide] (a multiple by
    at most 2^(head room - 2), 4 to 2048) for everything but inversion, division, roots and another small
    multiplication, [Raw] (a large multiple) for additions and normalisation
    only.  A program is allowed when it names existing variables, gives large
    enough buffers, i32 integers and bit indices in range, multiplies by
    integers below 2^(61 - top bits) only, and respects the marks. *)
Inductive mark := MReady | MWide | MRaw.
Definition bytesb (bs : list Z) : bool := forallb (fun b => (0 <=? b) && (b <? 256)) bs.
Definition i32b (k : Z) : bool := (- 2 ^ 31 <=? k) && (k <=? 2 ^ 31 - 1).
Definition known (m : list mark) (i : nat) : bool := match nth_error m i with Some _ => true | None => false end.
Definition ready (m : list mark) (i : nat) : bool := match nth_error m i with Some MReady => true | _ => false end.
Definition mulable (m : list mark) (i : nat) : bool := match nth_error m i with Some (MReady | MWide) => true | _ => false end.

Definition allowed (F : fld) (c : instr) (m : list mark) : option (list mark) :=
  let new b k := if (b : bool) then Some (m ++ [k])%list else None in
  let set i b k := if (b : bool) then Some (replace m i k) else None in
  let small i k := ready m i && i32b k && (Z.abs k <=? 2 ^ (61 - fl_tb F)) in
  let after k := if Z.abs k <=? 2 ^ (room F - 2) then MWide else MRaw in
  match c with
  | IConst _ => new true MReady
  | IUnpacked bs => new (bytesb bs && (fl_nb F <=? List.length bs)%nat) MReady
  | IRand ds => new (fl_n F <=? List.length ds)%nat MReady
  | IOp (Add | Sub) i j => new (known m i && known m j) MReady
  | IOp Mul i j => new (mulable m i && mulable m j) MReady
  | IOp Div i j => new (ready m i && ready m j) MReady
  | IAssign (Add | Sub) i j => set i (known m i && known m j) MReady
  | IAssign Mul i j => set i (mulable m i && mulable m j) MReady
  | IAssign Div i j => set i (ready m i && ready m j) MReady
  | ISmall (SmallAdd | SmallSub) i k => new (known m i && i32b k) MReady
  | ISmall SmallMul i k => new (small i k) (after k)
  | ISmallAssign (SmallAdd | SmallSub) i k => set i (known m i && i32b k) MReady
  | ISmallAssign SmallMul i k => set i (small i k) (after k)
  | IUn Square i => new (mulable m i) MReady
  | IUnAssign Square i => set i (mulable m i) MReady
  | IUn Invert i | ILegendre i | ISqrt i => new (ready m i) MReady
  | IUnAssign Invert i => set i (ready m i) MReady
  | INeg i => new (known m i) MReady
  | INormalize i | IPacked i => set i (known m i) MReady
  | IEq i j => if known m i && known m j && negb (Nat.eqb i j) then Some (replace (replace m i MReady) j MReady) else None
  | IBit i n => set i (known m i && ((0 <=? n) && (n <? fl_w F * Z.of_nat (fl_n F)))) MReady
  | IHex _ i => if known m i then Some m else None
  end.
Fixpoint allowed_all (F : fld) (p : list instr) (m : list mark) : option (list mark) :=
  match p with [] => Some m | c :: t => match allowed F c m with Some m' => allowed_all F t m' | None => None end end.
(** what a mark says about a variable *)
Definition marked (F : fld) (k : mark) (a : list Z) : Prop :=
  match k with MReady => produced F a | MWide => wide F a | MRaw => any_rep F a end.

(** ** The ideal execution: integers modulo the prime (C26) *)
Record istate := mkis { ivars : list Z; iseen : list val }.
Definition const_value (F : fld) (c : const) : Z :=
  match c with Zero => 0 | One => 1 | MinusOne => -1 | Modulus => 0 end.
(** the inverse modulo a prime (C26_inverse says so); 0 has inverse 0 *)
Definition inverse (F : fld) (x : Z) : Z := x ^ (modulus F - 2) mod modulus F.
(** the quadratic symbol (C26_symbol): 1, minus one or 0 modulo the prime *)
Definition symbol (F : fld) (x : Z) : Z := x ^ ((modulus F - 1) / 2) mod modulus F.
(** the square root (C26_root).  A prime that is 3 mod 4: one power.  A prime
    that is 5 mod 8: a power times the mean of 1 and i, weighted by 1 + q and
    1 - q, where q is the fourth power symbol and i a root of minus one. *)
Definition minus_one_root (F : fld) : Z :=
  if nbits F =? 221 then 921658464943177486719093625014730665168607133769152412513885836824
  else if nbits F =? 255 then 19681161376707505956807079304988542015446066515923890162744021073123829784752
  else if nbits F =? 383 then 5599521986369512752734075910606187695422861476635712368905198393239087679531919579128923981914579090392545610290906
  else if nbits F =? 511 then 775311976786011470610921745685905735426262755906623159218076148753967784153308139975972628880332483156021867188540650032230146065310567051819136579143686
  else 0.
Definition root (F : fld) (x : Z) : Z :=
  if modulus F mod 4 =? 3 then x ^ ((modulus F + 1) / 4) mod modulus F
  else let q := x ^ ((modulus F - 1) / 4) in
       (x ^ ((modulus F + 3) / 8) * ((modulus F + 1) / 2) * (1 + q + (1 - q) * minus_one_root F)) mod modulus F.
(** word [i] of the prime, below which the draws of a generator have to be *)
Definition prime_word (F : fld) (i : nat) : Z := modulus F / 2 ^ (fl_w F * Z.of_nat i) mod 2 ^ fl_w F.
Definition drawsb (F : fld) (ds : list Z) : bool :=
  (fl_n F <=? List.length ds)%nat && forallb (fun i => (0 <=? nth i ds 0) && (nth i ds 0 <? prime_word F i)) (seq 0 (fl_n F)).
Definition op_value (F : fld) (o : binop) (x y : Z) : Z :=
  match o with Add => x + y | Sub => x - y | Mul => x * y | Div => x * inverse F y end.
Definition small_value (o : smallop) (x k : Z) : Z :=
  match o with SmallAdd => x + k | SmallSub => x - k | SmallMul => x * k end.
Definition un_value (F : fld) (u : unop) (x : Z) : Z := match u with Square => x * x | Invert => inverse F x end.
(** the integer that some bytes encode, reduced to the number of bits that are read *)
Definition bytes_value (F : fld) (bs : list Z) : Z :=
  if nbits F =? 383 then le_value (firstn (fl_nb F) bs) else le_value (firstn (fl_nb F) bs) mod 2 ^ nbits F.
(** hexadecimal text of exactly [2 * nbytes] digits *)
Definition hex_of (F : fld) (up : bool) (z : Z) : list Z := hex_digits up (2 * fl_nb F) (z mod modulus F).

Definition istep (F : fld) (c : instr) (s : istate) : option istate :=
  let v := ivars s in
  let get i f := match nth_error v i with Some x => f x | None => None end in
  let new x := Some (mkis (v ++ [x])%list (iseen s)) in
  let set i x := Some (mkis (replace v i x) (iseen s)) in
  let obs o := Some (mkis v (iseen s ++ [o])%list) in
  match c with
  | IConst c => new (const_value F c)
  | IUnpacked bs => new (bytes_value F bs)
  | IOp o i j => get i (fun x => get j (fun y => new (op_value F o x y)))
  | IAssign o i j => get i (fun x => get j (fun y => set i (op_value F o x y)))
  | ISmall o i k => get i (fun x => new (small_value o x k))
  | ISmallAssign o i k => get i (fun x => set i (small_value o x k))
  | IUn u i => get i (fun x => new (un_value F u x))
  | IUnAssign u i => get i (fun x => set i (un_value F u x))
  | INormalize i => get i (fun x => Some s)
  | IPacked i => get i (fun x => obs (VArr (encode F x)))
  | IEq i j => get i (fun x => get j (fun y => obs (VInt (b2z (x mod modulus F =? y mod modulus F)))))
  | IBit i n => get i (fun x => obs (VInt (b2z (Z.testbit (x mod modulus F) n))))
  | IHex up i => get i (fun x => obs (VArr (hex_of F up x)))
  | IRand ds => new (value F (firstn (fl_n F) ds))
  | ILegendre i => get i (fun x => new (symbol F x))
  | ISqrt i => get i (fun x => new (root F x))
  | INeg _ => None
  end.
Fixpoint ideal (F : fld) (p : list instr) (s : istate) : option istate :=
  match p with [] => Some s | c :: t => match istep F c s with Some s' => ideal F t s' | None => None end end.
Definition istart : istate := mkis [] [].

(** ** A discipline under which every program computes its ideal value *)
(** How much is known about the representation of a variable. *)
Inductive shape := Canonical | Tight | Near | Summand | Loose | Fresh | Difference | Signed | Multiple | Wide | Big | Raw.
Definition has_shape (F : fld) (s : shape) (a : list Z) : Prop :=
  match s with
  | Canonical => canonical F a
  | Tight => tight F a
  | Near => near F a
  | Summand => summand F a
  | Loose => loose F a
  | Fresh => rep F (-1) (2 * 2 ^ fl_tb F + (fl_C F - 1)) a
  | Difference => rep F (- 2 ^ fl_tb F - 1) (2 ^ fl_tb F) a /\ normal F a
  | Signed => produced F a
  | Multiple => rep F 0 (2 ^ (fl_tb F + room F)) a
  | Wide => wide F a
  | Big => rep F 0 (2 ^ 63 - 1) a
  | Raw => any_rep F a
  end.
Definition is_tight (s : shape) : bool := match s with Canonical | Tight => true | _ => false end.
Definition is_near (s : shape) : bool := match s with Near => true | _ => is_tight s end.
Definition is_summand (s : shape) : bool := match s with Summand => true | _ => is_near s end.
Definition is_loose (s : shape) : bool := match s with Loose => true | _ => is_summand s end.
Definition is_nonneg (s : shape) : bool := match s with Multiple | Big => true | _ => is_loose s end.
Definition is_normal (s : shape) : bool := match s with Fresh | Difference => true | _ => is_nonneg s end.
Definition is_produced (s : shape) : bool := match s with Multiple | Wide | Big | Raw => false | _ => true end.
Definition is_wide (s : shape) : bool := match s with Multiple | Wide => true | _ => is_produced s end.

Definition is222 (F : fld) : bool := nbits F =? 222.
Definition is251 (F : fld) : bool := nbits F =? 251.
Definition is521 (F : fld) : bool := nbits F =? 521.
(** 1, 2, 4, ..., 2^27: the multipliers that are right in e521_1 (C07) *)
Definition powb (k : Z) : bool := (0 <? k) && (k =? 2 ^ Z.log2 k) && (Z.log2 k <=? 27).

Definition op_shape (F : fld) (o : binop) (s t : shape) : option shape :=
  match o with
  | Add => Some (if is_tight s && is_tight t then Summand else if is_nonneg s && is_nonneg t then Loose else Fresh)
  | Sub => if is_tight t then
             Some (if is_normal s && match t with Canonical => true | _ => false end then Difference else Signed)
           else None
  | Mul => if is251 F then
             if (is_summand s && is_summand t) || (is_loose s && is_near t) || (is_near s && is_loose t) then Some Loose else None
           else if is_loose s && is_loose t then Some Loose
           else if negb (is222 F) && is_wide s && is_wide t then Some Fresh else None
  | Div => if is251 F then None
           else if is222 F then if is_loose s && is_loose t then Some Loose else None
           else if is_wide s && is_wide t then Some Fresh else None
  end.
Definition small_shape (F : fld) (o : smallop) (s : shape) (k : Z) : option shape :=
  if i32b k then
    match o with
    | SmallAdd => Some (if is_nonneg s && (0 <=? k) then Near else Fresh)
    | SmallSub => Some Fresh
    | SmallMul => if is_tight s && (negb (is521 F) || powb k) && (Z.abs k <? 2 ^ (63 - fl_tb F))
                  then Some (if Z.abs k <=? 2 ^ room F then if 0 <=? k then Multiple else Wide
                             else if 0 <=? k then Big else Raw) else None
    end
  else None.
Definition un_shape (F : fld) (u : unop) (s : shape) : option shape :=
  match u with
  | Square => if is_loose s then Some Loose else if is_produced s || (negb (is222 F) && is_wide s) then Some Fresh else None
  | Invert => if is251 F then None
              else if is222 F then if is_loose s then Some Loose else None
              else if is_wide s then Some Fresh else None
  end.

Definition tracks (F : fld) (c : instr) (m : list shape) : option (list shape) :=
  let get i f := match nth_error m i with Some x => f x | None => None end in
  let new o := match o with Some s => Some (m ++ [s])%list | None => None end in
  let set i o := match o with Some s => Some (replace m i s) | None => None end in
  let norm i := get i (fun s => if is_normal s then Some (replace m i Canonical) else None) in
  match c with
  | IConst Modulus => new (Some Tight)
  | IConst _ => new (Some Canonical)
  | IUnpacked bs => if bytesb bs && (fl_nb F <=? List.length bs)%nat then new (Some (if nbits F =? 383 then Summand else Tight)) else None
  | IOp o i j => get i (fun s => get j (fun t => new (op_shape F o s t)))
  | IAssign o i j => get i (fun s => get j (fun t => set i (op_shape F o s t)))
  | ISmall o i k => get i (fun s => new (small_shape F o s k))
  | ISmallAssign o i k => get i (fun s => set i (small_shape F o s k))
  | IUn u i => get i (fun s => new (un_shape F u s))
  | IUnAssign u i => get i (fun s => set i (un_shape F u s))
  | INormalize i | IPacked i => norm i
  | IEq i j => get i (fun s => get j (fun t => if is_normal s && is_normal t && negb (Nat.eqb i j)
                 then Some (replace (replace m i Canonical) j Canonical) else None))
  | IBit i n => if (0 <=? n) && (n <? fl_w F * Z.of_nat (fl_n F)) then norm i else None
  | IHex _ i => get i (fun s => if is_normal s then Some m else None)
  | IRand ds => if drawsb F ds then new (Some Canonical) else None
  | ILegendre i | ISqrt i => get i (fun s => new (un_shape F Invert s))
  | INeg _ => None
  end.
Fixpoint tracks_all (F : fld) (p : list instr) (m : list shape) : option (list shape) :=
  match p with [] => Some m | c :: t => match tracks F c m with Some m' => tracks_all F t m' | None => None end end.

(** ** Expressions *)
Inductive term :=
| TInput (n : nat) | TInt (k : Z)
| TAdd (a b : term) | TSub (a b : term) | TMul (a b : term) | TNeg (a : term) | TSquare (a : term)
| TPlus (a : term) (k : Z) | TMinus (a : term) (k : Z) | TScale (a : term) (k : Z)
| TDiv (a b : term) | TInv (a : term) | TSymbol (a : term) | TRoot (a : term).
(** its value as an integer; inverses, symbols and roots are those modulo the prime *)
Fixpoint term_value (F : fld) (inp : nat -> Z) (t : term) : Z :=
  match t with
  | TInput n => inp n | TInt k => k
  | TAdd a b => term_value F inp a + term_value F inp b
  | TSub a b => term_value F inp a - term_value F inp b
  | TMul a b => term_value F inp a * term_value F inp b
  | TNeg a => - term_value F inp a
  | TSquare a => term_value F inp a * term_value F inp a
  | TPlus a k => term_value F inp a + k
  | TMinus a k => term_value F inp a - k
  | TScale a k => term_value F inp a * k
  | TDiv a b => term_value F inp a * inverse F (term_value F inp b)
  | TInv a => inverse F (term_value F inp a)
  | TSymbol a => symbol F (term_value F inp a)
  | TRoot a => root F (term_value F inp a)
  end.
(** its evaluation with the library, every result being normalised; negation is
    subtraction from zero (see C05), integers are added to zero *)
Section Eval.
  Variables (md : mode) (F : fld).
  Let lib := rust_call md (fl_tbl F).
  Definition normalized (r : res (list val * list val)) : res (list Z) :=
    bind r (fun ro => match fst ro with
      | [VArr a] => bind (lib "F::normalize" [VArr a]) (fun ro' => match snd ro' with [VArr b] => Ok b | _ => Stuck end)
      | _ => Stuck end).
  Fixpoint evaluate (inp : nat -> list Z) (t : term) : res (list Z) :=
    let zero f := normalized (bind (lib "F::zero" []) (fun ro => match fst ro with [z] => f z | _ => Stuck end)) in
    let both a b f := bind (evaluate inp a) (fun x => bind (evaluate inp b) (fun y => normalized (lib f [VArr x; VArr y]))) in
    let one a f := bind (evaluate inp a) (fun x => normalized (lib f [VArr x])) in
    let with_int a k f := bind (evaluate inp a) (fun x => normalized (lib f [VArr x; VInt k])) in
    match t with
    | TInput n => normalized (lib "F::unpacked" [VArr (inp n)])
    | TInt k => zero (fun z => lib "F::small_add" [z; VInt k])
    | TAdd a b => both a b "(&F)::add(&F)"
    | TSub a b => both a b "(&F)::sub(&F)"
    | TMul a b => both a b "(&F)::mul(&F)"
    | TNeg a => bind (evaluate inp a) (fun x => zero (fun z => lib "(&F)::sub(&F)" [z; VArr x]))
    | TSquare a => one a "F::squared"
    | TPlus a k => with_int a k "F::small_add"
    | TMinus a k => with_int a k "F::small_sub"
    | TScale a k => with_int a k "F::small_mul"
    | TDiv a b => both a b "(&F)::div(&F)"
    | TInv a => one a "F::inverted"
    | TSymbol a => one a "F::legendre"
    | TRoot a => one a "F::sqrt"
    end.
End Eval.
(** integers are i32; multipliers are not negative and not too large for the top
    word, and powers of two in e521_1 (C07); e251_9 does not invert (C21) *)
Fixpoint term_ok (F : fld) (t : term) : Prop :=
  match t with
  | TInput _ => True | TInt k => is_i32 k
  | TAdd a b | TSub a b | TMul a b => term_ok F a /\ term_ok F b
  | TNeg a | TSquare a => term_ok F a
  | TPlus a k | TMinus a k => is_i32 k /\ term_ok F a
  | TScale a k => is_i32 k /\ 0 <= k < 2 ^ (63 - fl_tb F) /\ (F = e521_1 -> exists j, 0 <= j /\ k = 2 ^ j) /\ term_ok F a
  | TDiv a b => F <> e251_9 /\ term_ok F a /\ term_ok F b
  | TInv a | TSymbol a | TRoot a => F <> e251_9 /\ term_ok F a
  end.

(** ** Laws (C27) *)
(** `a.packed()` returns [bs] *)
Definition encodes (F : fld) (a bs : list Z) : Prop := exists a', runs F "F::packed" [VArr a] [VArr bs] [VArr a'].
(** operands for which the ring laws are claimed: below 2^bits or just above; in
    e222_117 the sums and products of such; except in these two fields any
    value within the head room of multiplication *)
Definition ring_safe (F : fld) (a : list Z) : Prop := near F a \/ pow_safe F a.
