(** A verified analyser for straight-line word code.

    [kcheck fn ks] symbolically executes the body of [fn] on inputs whose words
    lie in given intervals.  Every intermediate value is kept as an interval and
    a polynomial over atoms, where an atom is an input word or floor(P / 2^k) for
    an already known polynomial P.  If [kcheck] returns true then
    ([kernel_sound]), for every input in the intervals and in both build modes,
    the function runs to completion without overflow or panic, its output words
    are within the stated bounds, and the number they denote equals the stated
    specification (modulo the stated modulus). *)
From Coq Require Import ZArith List String Bool Lia.
From Verif Require Import Lang Poly.
Import ListNotations.
Local Open Scope Z_scope.

(** * Abstract values *)
Record aval := mkav { ap : poly; alo : Z; ahi : Z }.
Inductive aobj := OInt (v : aval) | OArr (vs : list aval) (open : bool).
Definition aenv := list (string * aobj).
Record st := mkst { s_next : positive; s_tbl : list (positive * (poly * Z)) }.

Inductive sr (A : Type) := SOk (a : A) (s : st) | SPanic (s : st) | SFail.
Arguments SOk {A}. Arguments SPanic {A}. Arguments SFail {A}.
Definition sbind {A B} (r : sr A) (f : A -> st -> sr B) : sr B :=
  match r with SOk a s => f a s | SPanic s => SPanic s | SFail => SFail end.

Fixpoint find_q (P : poly) (k : Z) (t : list (positive * (poly * Z))) : option positive :=
  match t with
  | [] => None
  | (a, (Q, j)) :: t' => if (k =? j) && peqb P Q then Some a else find_q P k t'
  end.
Fixpoint find_def (a : positive) (t : list (positive * (poly * Z))) : option (poly * Z) :=
  match t with
  | [] => None
  | (b, d) :: t' => if Pos.eqb a b then Some d else find_def a t'
  end.

Definition intern (P : poly) (k : Z) (s : st) : poly * st :=
  match find_q P k (s_tbl s) with
  | Some a => (patom a, s)
  | None => (patom (s_next s), mkst (Pos.succ (s_next s)) ((s_next s, (P, k)) :: s_tbl s))
  end.

(* divide P and 2^k by a common power of two *)
Definition content (P : poly) : Z := fold_right (fun mc g => Z.gcd (snd mc) g) 0 P.
Definition pnorm (P : poly) (k : Z) : poly * Z :=
  let j := Z.log2 (Z.gcd (content P) (2 ^ k)) in
  let lh := psplit (2 ^ j) P in
  match fst lh with
  | [] => if j <=? k then (snd lh, k - j) else (P, k)
  | _ => (P, k)
  end.

(* floor(P / 2^k) *)
Definition mkq0 (P : poly) (k : Z) (s : st) : poly * st :=
  let lh := psplit (2 ^ k) P in
  match fst lh with
  | [] => (snd lh, s)
  | l => let n := pnorm l k in
         let qs := intern (fst n) (snd n) s in (padd (fst qs) (snd lh), snd qs)
  end.

Definition atom_def (l : poly) (s : st) : option (poly * Z) :=
  match l with
  | [([a], 1)] => find_def a (s_tbl s)
  | _ => None
  end.

Definition mkq (P : poly) (k : Z) (s : st) : poly * st :=
  let lh := psplit (2 ^ k) P in
  let n := pnorm (fst lh) k in
  match atom_def (fst n) s with
  | Some (Y, i) =>
      if 0 <=? i then let qs := mkq0 Y (i + snd n) s in (padd (fst qs) (snd lh), snd qs)
      else mkq0 P k s
  | None => mkq0 P k s
  end.

Definition qv (v : aval) (k : Z) (s : st) : aval * st :=
  let l := alo v / 2 ^ k in
  let h := ahi v / 2 ^ k in
  if l =? h then (mkav (pconst l) l h, s)
  else let qs := mkq (ap v) k s in (mkav (fst qs) l h, snd qs).

(* land with the mask 2^j - 2^i *)
Definition mask_i (m : Z) : Z := Z.log2 (Z.land m (- m)).
Definition mask_j (m : Z) : Z := Z.log2 m + 1.
Definition sand (v : aval) (m : Z) (s : st) : sr aval :=
  if m =? 0 then SOk (mkav [] 0 0) s else
  let i := mask_i m in let j := mask_j m in
  if (0 <? m) && (m =? 2 ^ j - 2 ^ i) && (0 <=? i) && (i <=? j) then
    let q1 := qv v i s in
    let q2 := qv v j (snd q1) in
    SOk (mkav (psub (pscale (2 ^ i) (ap (fst q1))) (pscale (2 ^ j) (ap (fst q2))))
              0 (if 0 <=? alo v then Z.min (ahi v) m else m)) (snd q2)
  else SFail.

Definition ok64 (v : aval) : bool := in_i64 (alo v) && in_i64 (ahi v).
Definition chk64 (v : aval) (s : st) : sr aval := if ok64 v then SOk v s else SFail.

Definition sadd (a b : aval) := mkav (padd (ap a) (ap b)) (alo a + alo b) (ahi a + ahi b).
Definition ssub (a b : aval) := mkav (psub (ap a) (ap b)) (alo a - ahi b) (ahi a - alo b).
Definition smul (a b : aval) :=
  let w := alo a * alo b in let x := alo a * ahi b in
  let y := ahi a * alo b in let z := ahi a * ahi b in
  mkav (pmul (ap a) (ap b)) (Z.min (Z.min w x) (Z.min y z)) (Z.max (Z.max w x) (Z.max y z)).
Definition sshl (a : aval) (n : Z) := mkav (pscale (2 ^ n) (ap a)) (2 ^ n * alo a) (2 ^ n * ahi a).

(* a is below 2^k and b a multiple of 2^k *)
Definition disjoint (a b : aval) : bool :=
  let k := Z.log2_up (ahi a + 1) in
  (0 <=? alo a) && (ahi a <? 2 ^ k) && (0 <=? k) && pdivisible (2 ^ k) (ap b).

Definition get_int (x : string) (ae : aenv) (s : st) : sr aval :=
  match lookup x ae with Some (OInt v) => SOk v s | _ => SFail end.
Definition get_idx (a : string) (i : Z) (ae : aenv) (s : st) : sr aval :=
  match lookup a ae with
  | Some (OArr vs open) =>
      if i <? 0 then SFail else
      match nth_error vs (Z.to_nat i) with
      | Some v => SOk v s
      | None => if open then SFail else SPanic s
      end
  | _ => SFail
  end.

Definition okshift (n : Z) : bool := (0 <=? n) && (n <? 64).

Fixpoint seval (e : expr) (ae : aenv) (s : st) {struct e} : sr aval :=
  match e with
  | EInt z => SOk (mkav (pconst z) z z) s
  | EVar x => get_int x ae s
  | EIdx (EVar a) (EInt i) => get_idx a i ae s
  | EAdd a b => sbind (seval a ae s) (fun u s => sbind (seval b ae s) (fun v s => chk64 (sadd u v) s))
  | ESub a b => sbind (seval a ae s) (fun u s => sbind (seval b ae s) (fun v s => chk64 (ssub u v) s))
  | EMul a b => sbind (seval a ae s) (fun u s => sbind (seval b ae s) (fun v s => chk64 (smul u v) s))
  | EAnd (EShl a (EInt n)) (EInt m) =>
      if okshift n && (0 <=? m) && (m <? 2 ^ 63)
      then sbind (seval a ae s) (fun u s => sand (sshl u n) m s) else SFail
  | EAnd a (EInt m) => sbind (seval a ae s) (fun u s => sand u m s)
  | EOr a b => sbind (seval a ae s) (fun u s => sbind (seval b ae s) (fun v s =>
      if disjoint u v || disjoint v u then SOk (sadd u v) s else SFail))
  | EShl a (EInt n) =>
      if okshift n then sbind (seval a ae s) (fun u s => chk64 (sshl u n) s) else SFail
  | EShr a (EInt n) =>
      if okshift n then sbind (seval a ae s) (fun u s => let q := qv u n s in SOk (fst q) (snd q)) else SFail
  | ECast t a => sbind (seval a ae s) (fun u s =>
      if match t with
         | U8 => (0 <=? alo u) && (ahi u <? 256)
         | I32 => (- 2 ^ 31 <=? alo u) && (ahi u <? 2 ^ 31)
         | I64 => ok64 u end
      then SOk u s else SFail)
  | _ => SFail
  end.

Fixpoint aset (vs : list aval) (n : nat) (v : aval) : option (list aval) :=
  match vs, n with
  | [], _ => None
  | _ :: t, O => Some (v :: t)
  | h :: t, S k => match aset t k v with Some t' => Some (h :: t') | None => None end
  end.

Definition sexec (x : stmt) (ae : aenv) (s : st) : sr aenv :=
  match x with
  | SLet x e => sbind (seval e ae s) (fun v s => SOk (upd x (OInt v) ae) s)
  | SSet a (EInt i) e => sbind (seval e ae s) (fun v s =>
      match lookup a ae with
      | Some (OArr vs open) =>
          if i <? 0 then SFail else
          match aset vs (Z.to_nat i) v with
          | Some vs' => SOk (upd a (OArr vs' open) ae) s
          | None => if open then SFail else SPanic s
          end
      | _ => SFail
      end)
  | _ => SFail
  end.
(** * Specifications: integer expressions over the arguments *)
Inductive sexp :=
| XC (z : Z)                       (* constant *)
| XW (j i : nat)                   (* word i of argument j *)
| XI (j : nat)                     (* integer argument j *)
| XQ (j i : nat) (k : Z)           (* floor(word i of argument j / 2^k) *)
| XAdd (a b : sexp) | XSub (a b : sexp) | XMul (a b : sexp).

Definition word (args : list val) (j i : nat) : Z :=
  match nth_error args j with Some (VArr l) => nth i l 0 | _ => 0 end.
Fixpoint xden (args : list val) (x : sexp) : Z :=
  match x with
  | XC z => z
  | XW j i => word args j i
  | XI j => match nth_error args j with Some (VInt z) => z | _ => 0 end
  | XQ j i k => word args j i / 2 ^ k
  | XAdd a b => xden args a + xden args b
  | XSub a b => xden args a - xden args b
  | XMul a b => xden args a * xden args b
  end.

Definition oword (os : list aobj) (j i : nat) : option aval :=
  match nth_error os j with Some (OArr vs _) => nth_error vs i | _ => None end.
Fixpoint sav (os : list aobj) (x : sexp) (s : st) : option (aval * st) :=
  let bin a b (f : aval -> aval -> aval) :=
    match sav os a s with
    | Some (p, s1) => match sav os b s1 with Some (q, s2) => Some (f p q, s2) | None => None end
    | None => None end in
  match x with
  | XC z => Some (mkav (pconst z) z z, s)
  | XW j i => match oword os j i with Some v => Some (v, s) | None => None end
  | XI j => match nth_error os j with Some (OInt v) => Some (v, s) | _ => None end
  | XQ j i k => match oword os j i with
                | Some v => if 0 <=? k then let q := qv v k s in Some (fst q, snd q) else None
                | None => None end
  | XAdd a b => bin a b sadd
  | XSub a b => bin a b ssub
  | XMul a b => bin a b smul
  end.

(** A hint (x, (ds, N)) says that the variable x holds floor(N / 2^(w*length ds)),
    the lower w-bit digits of N being those of the variables ds.  The checker
    verifies the claim as a polynomial identity and uses it to narrow the
    interval of x. *)
Definition hints := list (string * (list string * sexp)).

Fixpoint digits (w : Z) (ds : list string) (ae : aenv) (s : st) : sr poly :=
  match ds with
  | [] => SOk [] s
  | d :: t => sbind (get_int d ae s) (fun v s => sbind (sand v (2 ^ w - 1) s) (fun u s =>
              sbind (digits w t ae s) (fun p s => SOk (padd (ap u) (pscale (2 ^ w) p)) s)))
  end.
Definition refine1 (w : Z) (os : list aobj) (x : string) (ds : list string) (N : sexp)
    (ae : aenv) (s : st) : sr aenv :=
  sbind (get_int x ae s) (fun v s => sbind (digits w ds ae s) (fun R s =>
  match sav os N s with
  | Some (n, s) =>
      let m := 2 ^ (w * Z.of_nat (List.length ds)) in
      if (0 <=? w) && pdivisible 0 (psub (ap n) (padd R (pscale m (ap v)))) then
        SOk (upd x (OInt (mkav (ap v) (Z.max (alo v) (alo n / m)) (Z.min (ahi v) (ahi n / m)))) ae) s
      else SFail
  | None => SFail
  end)).
Definition refine (w : Z) (hs : hints) (os : list aobj) (x : string) (ae : aenv) (s : st) : sr aenv :=
  match lookup x hs with
  | Some (ds, N) => refine1 w os x ds N ae s
  | None => SOk ae s
  end.
Definition hinted (w : Z) (hs : hints) (os : list aobj) (x : stmt) (ae : aenv) (s : st) : sr aenv :=
  match x with SLet x _ => refine w hs os x ae s | _ => SOk ae s end.

Fixpoint sexecs (w : Z) (hs : hints) (os : list aobj) (l : list stmt) (ae : aenv) (s : st) : sr aenv :=
  match l with
  | [] => SOk ae s
  | x :: t => sbind (sexec x ae s) (fun ae s => sbind (hinted w hs os x ae s) (fun ae s => sexecs w hs os t ae s))
  end.

(** * Meaning *)
Definition models (r : positive -> Z) (s : st) : Prop :=
  forall a P k, In (a, (P, k)) (s_tbl s) -> r a = peval r P / 2 ^ k.
Definition ext (s s' : st) : Prop := exists l, s_tbl s' = l ++ s_tbl s.

Lemma ext_refl s : ext s s. Proof. exists []; reflexivity. Qed.
Lemma ext_trans s1 s2 s3 : ext s1 s2 -> ext s2 s3 -> ext s1 s3.
Proof. intros [l1 H1] [l2 H2]. exists (l2 ++ l1). rewrite H2, H1, app_assoc. reflexivity. Qed.
Lemma models_ext r s s' : ext s s' -> models r s' -> models r s.
Proof. intros [l H] M a P k Hin. apply M. rewrite H. apply in_or_app; auto. Qed.
Global Hint Resolve ext_refl : core.

Definition holds (r : positive -> Z) (v : aval) (z : Z) : Prop :=
  z = peval r (ap v) /\ alo v <= z <= ahi v.

Lemma find_q_in P k t a : find_q P k t = Some a -> In (a, (P, k)) t.
Proof.
  induction t as [|[b [Q j]] t IH]; simpl; [discriminate|].
  destruct (Z.eqb_spec k j) as [->|]; simpl.
  - destruct (peqb P Q) eqn:E; [|auto]. apply peqb_eq in E. intros [= <-]. subst; auto.
  - auto.
Qed.
Lemma find_def_in a t d : find_def a t = Some d -> In (a, d) t.
Proof.
  induction t as [|[b d'] t IH]; simpl; [discriminate|].
  destruct (Pos.eqb_spec a b) as [->|]; [intros [= ->]; auto|auto].
Qed.

Lemma intern_ext P k s : ext s (snd (intern P k s)).
Proof. unfold intern. destruct find_q; simpl; auto. exists [(s_next s, (P, k))]. reflexivity. Qed.
Lemma intern_sound r P k s : models r (snd (intern P k s)) ->
  peval r (fst (intern P k s)) = peval r P / 2 ^ k.
Proof.
  unfold intern. destruct (find_q P k (s_tbl s)) eqn:E; cbn [fst snd]; intros M; rewrite patom_eval.
  - apply M. apply find_q_in; assumption.
  - apply M. left; reflexivity.
Qed.

Lemma pow2_pos k : 0 <= k -> 0 < 2 ^ k.
Proof. intros; apply Z.pow_pos_nonneg; lia. Qed.
Lemma pnorm_ok r P k : 0 <= k -> 0 <= snd (pnorm P k) /\ peval r (fst (pnorm P k)) / 2 ^ snd (pnorm P k) = peval r P / 2 ^ k.
Proof.
  intros Hk. unfold pnorm. set (j := Z.log2 _).
  assert (Hj : 0 <= j) by apply Z.log2_nonneg. pose proof (pow2_pos j Hj).
  destruct (fst (psplit (2 ^ j) P)) eqn:E; [|auto].
  destruct (Z.leb_spec j k); [|auto]. cbn [fst snd]. split; [lia|].
  rewrite (psplit_eval r (2 ^ j) P), E by lia. change (peval r []) with 0. rewrite Z.add_0_l.
  replace (2 ^ k) with (2 ^ j * 2 ^ (k - j)) by (rewrite <- Z.pow_add_r by lia; f_equal; lia).
  rewrite Z.div_mul_cancel_l; auto; [|lia]. pose proof (pow2_pos (k - j) ltac:(lia)); lia.
Qed.
Lemma mkq0_ext P k s : ext s (snd (mkq0 P k s)).
Proof. unfold mkq0. destruct (fst (psplit _ P)); cbn [snd]; auto. apply intern_ext. Qed.
Lemma mkq0_sound r P k s : 0 <= k -> models r (snd (mkq0 P k s)) ->
  peval r (fst (mkq0 P k s)) = peval r P / 2 ^ k.
Proof.
  intros Hk. pose proof (pow2_pos k Hk) as Hp.
  rewrite (psplit_eval r (2 ^ k) P) by lia.
  unfold mkq0. destruct (fst (psplit (2 ^ k) P)) eqn:E; intros M.
  - simpl. rewrite Z.mul_comm, Z.div_mul by lia. reflexivity.
  - cbn [fst snd] in *. rewrite padd_eval. rewrite intern_sound by exact M.
    rewrite (Z.mul_comm (2 ^ k)), Z.div_add by lia. f_equal. apply pnorm_ok; auto.
Qed.

Lemma atom_def_in l s d : atom_def l s = Some d -> exists a, l = [([a], 1)] /\ In (a, d) (s_tbl s).
Proof.
  unfold atom_def. destruct l as [|[[|a [|]] [|[]|]] [|]]; try discriminate.
  intros H; exists a; split; auto. apply find_def_in; auto.
Qed.
Lemma mkq_ext P k s : ext s (snd (mkq P k s)).
Proof.
  unfold mkq. destruct (atom_def _ s) as [[Y i]|]; [|apply mkq0_ext].
  destruct (0 <=? i); [|apply mkq0_ext]. apply mkq0_ext.
Qed.
Lemma mkq_sound r P k s : 0 <= k -> models r (snd (mkq P k s)) ->
  peval r (fst (mkq P k s)) = peval r P / 2 ^ k.
Proof.
  intros Hk. pose proof (pow2_pos k Hk) as Hp.
  destruct (pnorm_ok r (fst (psplit (2 ^ k) P)) k Hk) as [N1 N2].
  unfold mkq. destruct (atom_def _ s) as [[Y i]|] eqn:E; [|apply mkq0_sound; auto].
  destruct (Z.leb_spec 0 i); [|apply mkq0_sound; auto].
  cbn [fst snd]. intros M. rewrite padd_eval, mkq0_sound by (auto with zarith).
  apply atom_def_in in E as (a & El & Hin).
  rewrite (psplit_eval r (2 ^ k) P) by lia.
  rewrite (Z.mul_comm (2 ^ k)), Z.div_add by lia. f_equal.
  rewrite <- N2, El. change [([a], 1)] with (patom a). rewrite patom_eval.
  rewrite (models_ext _ _ _ (mkq0_ext _ _ _) M _ _ _ Hin).
  rewrite Z.pow_add_r by lia. rewrite Z.div_div; auto with zarith.
Qed.

Lemma qv_ext v k s : ext s (snd (qv v k s)).
Proof. unfold qv. destruct (_ =? _); simpl; auto. apply mkq_ext. Qed.
Lemma qv_sound r v k s z : 0 <= k -> models r (snd (qv v k s)) -> holds r v z ->
  holds r (fst (qv v k s)) (z / 2 ^ k).
Proof.
  intros Hk M [Hz Hb]. pose proof (pow2_pos k Hk) as Hp.
  assert (alo v / 2 ^ k <= z / 2 ^ k <= ahi v / 2 ^ k) by (split; apply Z.div_le_mono; lia).
  unfold qv in *. destruct (Z.eqb_spec (alo v / 2 ^ k) (ahi v / 2 ^ k)) as [E|E]; cbn [fst snd] in *; split; cbn [ap alo ahi]; auto.
  - rewrite pconst_eval. lia.
  - rewrite mkq_sound by auto. congruence.
Qed.

(** ** Bit-level facts *)
Lemma land_mask x i j : 0 <= i <= j ->
  Z.land x (2 ^ j - 2 ^ i) = 2 ^ i * (x / 2 ^ i) - 2 ^ j * (x / 2 ^ j).
Proof.
  intros H.
  assert (Hm : 2 ^ j - 2 ^ i = Z.shiftl (Z.ones (j - i)) i).
  { rewrite Z.shiftl_mul_pow2, Z.ones_equiv by lia. replace j with (j - i + i) at 1 by lia.
    rewrite Z.pow_add_r by lia. unfold Z.pred. ring. }
  assert (Hl : Z.land x (Z.shiftl (Z.ones (j - i)) i) = Z.shiftl (Z.land (Z.shiftr x i) (Z.ones (j - i))) i).
  { apply Z.bits_inj'. intros n Hn. rewrite Z.land_spec.
    destruct (Z.ltb_spec n i) as [L|L].
    - rewrite (Z.shiftl_spec_low _ _ _ L), (Z.shiftl_spec_low _ _ _ L). apply andb_false_r.
    - rewrite (Z.shiftl_spec_high _ _ _ Hn L), (Z.shiftl_spec_high _ _ _ Hn L), Z.land_spec, Z.shiftr_spec by lia.
      replace (n - i + i) with n by lia. reflexivity. }
  rewrite Hm, Hl, Z.shiftl_mul_pow2, Z.land_ones, Z.shiftr_div_pow2 by lia.
  pose proof (pow2_pos i ltac:(lia)). pose proof (pow2_pos (j - i) ltac:(lia)).
  rewrite Z.mod_eq by lia. rewrite Z.div_div by lia. rewrite <- Z.pow_add_r by lia.
  replace (i + (j - i)) with j by lia.
  replace (2 ^ j) with (2 ^ (j - i) * 2 ^ i) at 2 by (rewrite <- Z.pow_add_r by lia; f_equal; lia).
  ring.
Qed.

Lemma land_low z m b : 0 <= b -> 0 <= m < 2 ^ b -> Z.land (z mod 2 ^ b) m = Z.land z m.
Proof.
  intros Hb Hm. apply Z.bits_inj'. intros n Hn. rewrite !Z.land_spec.
  destruct (Z.ltb_spec n b).
  - rewrite Z.mod_pow2_bits_low by lia. reflexivity.
  - replace (Z.testbit m n) with false; [rewrite !andb_false_r; reflexivity|].
    destruct (Z.eq_dec m 0) as [->|]; [symmetry; apply Z.bits_0|].
    symmetry. apply Z.bits_above_log2; [lia|].
    apply Z.log2_lt_pow2; [lia|]. apply Z.lt_le_trans with (2 ^ b); [lia|]. apply Z.pow_le_mono_r; lia.
Qed.

Lemma in_i64_iff z : in_i64 z = true <-> - 2 ^ 63 <= z < 2 ^ 63.
Proof. unfold in_i64. rewrite andb_true_iff, Z.leb_le, Z.ltb_lt. lia. Qed.

Lemma wrap_id b z : 0 < b -> - 2 ^ (b - 1) <= z < 2 ^ (b - 1) -> wrap b z = z.
Proof.
  intros Hb H. unfold wrap.
  assert (E : 2 ^ b = 2 * 2 ^ (b - 1)) by (rewrite <- Z.pow_succ_r by lia; f_equal; lia).
  pose proof (pow2_pos (b - 1) ltac:(lia)).
  destruct (Z.ltb_spec z 0).
  - replace (z mod 2 ^ b) with (z + 2 ^ b).
    + destruct (Z.ltb_spec (z + 2 ^ b) (2 ^ (b - 1))); lia.
    + apply Z.mod_unique with (-1); lia.
  - rewrite Z.mod_small by lia. destruct (Z.ltb_spec z (2 ^ (b - 1))); lia.
Qed.
Lemma wrap64_id z : in_i64 z = true -> wrap 64 z = z.
Proof. rewrite in_i64_iff. intros; apply wrap_id; simpl; lia. Qed.
Lemma wrap_mod b z : 0 < b -> wrap b z mod 2 ^ b = z mod 2 ^ b.
Proof.
  intros Hb. unfold wrap. pose proof (pow2_pos b ltac:(lia)). destruct (_ <? _).
  - apply Z.mod_mod; lia.
  - replace (z mod 2 ^ b - 2 ^ b) with (z mod 2 ^ b + (-1) * 2 ^ b) by ring.
    rewrite Z.mod_add, Z.mod_mod by lia. reflexivity.
Qed.

Lemma lor_add x y s : 0 <= s -> 0 <= x < 2 ^ s -> (exists k, y = 2 ^ s * k) -> Z.lor x y = x + y.
Proof.
  intros Hs Hx [k ->].
  assert (L : Z.land x (2 ^ s * k) = 0).
  { apply Z.bits_inj'. intros n Hn. rewrite Z.land_spec, Z.bits_0, (Z.mul_comm (2 ^ s)).
    destruct (Z.ltb_spec n s).
    - rewrite Z.mul_pow2_bits_low by lia. apply andb_false_r.
    - rewrite andb_false_intro1; auto.
      destruct (Z.eq_dec x 0) as [->|]; [apply Z.bits_0|].
      apply Z.bits_above_log2; [lia|]. apply Z.log2_lt_pow2; [lia|].
      apply Z.lt_le_trans with (2 ^ s); [lia|]. apply Z.pow_le_mono_r; lia. }
  rewrite <- Z.lxor_lor by exact L. symmetry. apply Z.add_nocarry_lxor. exact L.
Qed.

(** ** Abstract operations are sound *)
Lemma sand_ext v m s v' s' : sand v m s = SOk v' s' -> ext s s'.
Proof.
  unfold sand. destruct (m =? 0); [intros [= <- <-]; auto|].
  destruct (_ && _); [|discriminate]. intros [= <- <-].
  eapply ext_trans; [|apply qv_ext]. apply qv_ext.
Qed.
Lemma sand_sound r v m s v' s' z : sand v m s = SOk v' s' -> models r s' -> holds r v z ->
  holds r v' (Z.land z m).
Proof.
  unfold sand. destruct (Z.eqb_spec m 0) as [->|Hm0].
  { intros [= <- <-] _ _. rewrite Z.land_0_r. split; simpl; lia. }
  destruct (_ && _) eqn:E; [|discriminate].
  rewrite !andb_true_iff, Z.ltb_lt, Z.eqb_eq, !Z.leb_le in E. destruct E as [[[E1 E2] E3] E4].
  intros [= <- <-] M H.
  assert (M1 : models r (snd (qv v (mask_i m) s))) by (eapply models_ext; [apply qv_ext|exact M]).
  pose proof (qv_sound r v (mask_i m) s z E3 M1 H) as [Q1 _].
  pose proof (qv_sound r v (mask_j m) _ z ltac:(lia) M H) as [Q2 _].
  split; cbn [ap alo ahi].
  - rewrite psub_eval, !pscale_eval, <- Q1, <- Q2. rewrite E2 at 1. apply land_mask; lia.
  - assert (B : 0 <= Z.land z m) by (apply Z.land_nonneg; lia).
    assert (B2 : Z.land z m <= m).
    { rewrite Z.land_comm. apply Z.ldiff_le; [lia|]. rewrite Z.ldiff_land.
      apply Z.bits_inj'; intros n Hn. rewrite !Z.land_spec, Z.lnot_spec, Z.bits_0 by lia.
      destruct (Z.testbit m n), (Z.testbit z n); reflexivity. }
    split; [exact B|]. destruct (Z.leb_spec 0 (alo v)) as [L|L]; [|exact B2].
    apply Z.min_glb; [|exact B2]. destruct H as [_ H].
    apply Z.le_trans with z; [|lia].
    apply Z.ldiff_le; [lia|]. rewrite Z.ldiff_land.
    apply Z.bits_inj'; intros n Hn. rewrite !Z.land_spec, Z.lnot_spec, Z.bits_0 by lia.
    destruct (Z.testbit m n), (Z.testbit z n); reflexivity.
Qed.

Lemma sadd_sound r a b x y : holds r a x -> holds r b y -> holds r (sadd a b) (x + y).
Proof. intros [-> H1] [-> H2]. split; cbn [ap alo ahi sadd]; [rewrite padd_eval; ring|lia]. Qed.
Lemma ssub_sound r a b x y : holds r a x -> holds r b y -> holds r (ssub a b) (x - y).
Proof. intros [-> H1] [-> H2]. split; cbn [ap alo ahi ssub]; [rewrite psub_eval; ring|lia]. Qed.
Lemma mul_bounds a b c d x y : a <= x <= b -> c <= y <= d ->
  Z.min (Z.min (a * c) (a * d)) (Z.min (b * c) (b * d)) <= x * y <=
  Z.max (Z.max (a * c) (a * d)) (Z.max (b * c) (b * d)).
Proof.
  intros Hx Hy.
  assert (H1 : Z.min (a * y) (b * y) <= x * y <= Z.max (a * y) (b * y)).
  { destruct (Z.le_gt_cases 0 y); [rewrite Z.min_l, Z.max_r by nia | rewrite Z.min_r, Z.max_l by nia]; nia. }
  assert (H2 : forall u, Z.min (u * c) (u * d) <= u * y <= Z.max (u * c) (u * d)).
  { intros u. destruct (Z.le_gt_cases 0 u); [rewrite Z.min_l, Z.max_r by nia | rewrite Z.min_r, Z.max_l by nia]; nia. }
  pose proof (H2 a); pose proof (H2 b). lia.
Qed.
Lemma smul_sound r a b x y : holds r a x -> holds r b y -> holds r (smul a b) (x * y).
Proof.
  intros [-> H1] [-> H2]. split; cbn [ap alo ahi smul]; [rewrite pmul_eval; ring|].
  apply mul_bounds; assumption.
Qed.
Lemma sshl_sound r a n x : 0 <= n -> holds r a x -> holds r (sshl a n) (Z.shiftl x n).
Proof.
  intros Hn [-> H]. pose proof (pow2_pos n Hn). rewrite Z.shiftl_mul_pow2 by lia.
  split; cbn [ap alo ahi sshl]; [rewrite pscale_eval; ring|nia].
Qed.
Lemma ok64_sound r v z : ok64 v = true -> holds r v z -> in_i64 z = true.
Proof. unfold ok64. rewrite andb_true_iff, !in_i64_iff. intros [H1 H2] [_ H]. lia. Qed.
Lemma disjoint_sound r a b x y : disjoint a b = true -> holds r a x -> holds r b y ->
  Z.lor x y = x + y.
Proof.
  unfold disjoint. rewrite !andb_true_iff, !Z.leb_le, Z.ltb_lt. intros [[[H1 H2] H3] H4] [_ Ha] [-> _].
  eapply lor_add; [exact H3|lia|]. apply pdivisible_sound; exact H4.
Qed.

(** ** The table of definitions only grows *)
Definition grows {A} (s : st) (x : sr A) : Prop :=
  match x with SOk _ s' | SPanic s' => ext s s' | SFail => True end.

Lemma grows_bind {A B} s (x : sr A) (f : A -> st -> sr B) :
  grows s x -> (forall u s, grows s (f u s)) -> grows s (sbind x f).
Proof.
  intros Hx Hf. destruct x as [u s1|s1|]; simpl in *; auto.
  specialize (Hf u s1). destruct (f u s1); simpl in *; eauto using ext_trans.
Qed.
Lemma chk64_grows w s : grows s (chk64 w s).
Proof. unfold chk64. destruct (ok64 w); simpl; auto. Qed.
Lemma sand_grows w m s : grows s (sand w m s).
Proof.
  destruct (sand w m s) eqn:E; simpl; auto; [eapply sand_ext; eauto|].
  unfold sand in E. destruct (m =? 0); [discriminate|]. destruct (_ && _); discriminate.
Qed.
Lemma seval_ext ae : forall e s, grows s (seval e ae s).
Proof.
  fix IH 1. intros e s.
  destruct e as [z|l|x|a i|a b|a b|a b|a b|a b|a b|a b|a b|a|a b|a b|a b|t a|a n]; try exact I.
  - simpl; auto.
  - simpl. unfold get_int. destruct (lookup x ae) as [[]|]; simpl; auto.
  - destruct a; try exact I. destruct i; try exact I. simpl. unfold get_idx.
    destruct (lookup x ae) as [[v|vs open]|]; simpl; auto. destruct (z <? 0); simpl; auto.
    destruct (nth_error vs (Z.to_nat z)); simpl; auto. destruct open; simpl; auto.
  - apply grows_bind; [apply IH|]. intros; apply grows_bind; [apply IH|]. intros; apply chk64_grows.
  - apply grows_bind; [apply IH|]. intros; apply grows_bind; [apply IH|]. intros; apply chk64_grows.
  - apply grows_bind; [apply IH|]. intros; apply grows_bind; [apply IH|]. intros; apply chk64_grows.
  - destruct b as [m| | | | | | | | | | | | | | | | | ]; try (destruct a as [| | | | | | | | |a []| | | | | | | | ]; exact I).
    pose proof (grows_bind s (seval a ae s) (fun u s => sand u m s) (IH a s) (fun u s => sand_grows u m s)) as G.
    destruct a as [| | | | | | | | |a n| | | | | | | | ]; try exact G.
    destruct n as [n| | | | | | | | | | | | | | | | | ]; try exact G.
    cbn [seval]. destruct (_ && _); [|exact I]. apply grows_bind; [apply IH|]. intros; apply sand_grows.
  - apply grows_bind; [apply IH|]. intros; apply grows_bind; [apply IH|].
    intros. destruct (_ || _); simpl; auto.
  - destruct b; try exact I. cbn [seval]. destruct (okshift z); [|exact I].
    apply grows_bind; [apply IH|]. intros; apply chk64_grows.
  - destruct b; try exact I. cbn [seval]. destruct (okshift z); [|exact I].
    apply grows_bind; [apply IH|]. intros; apply qv_ext.
  - apply grows_bind; [apply IH|]. intros. destruct (match t with U8 => _ | I32 => _ | I64 => _ end); simpl; auto.
Qed.
Lemma sexec_ext x ae s : grows s (sexec x ae s).
Proof.
  destruct x as [x e|a i e|ds f args|x lo hi b|x g lo hi|f t0|f u p b e]; try exact I.
  - simpl. apply grows_bind; [apply seval_ext|]. simpl; auto.
  - destruct i; try exact I. simpl. apply grows_bind; [apply seval_ext|]. intros u s0.
    destruct (lookup a ae) as [[|vs open]|]; simpl; auto. destruct (z <? 0); simpl; auto.
    destruct (aset vs (Z.to_nat z) u); simpl; auto. destruct open; simpl; auto.
Qed.
Lemma sav_ext os x : forall s p s', sav os x s = Some (p, s') -> ext s s'.
Proof.
  induction x as [z|j i|j|j i k|a IHa b IHb|a IHa b IHb|a IHa b IHb]; intros s p s'; simpl.
  - intros [= <- <-]; auto.
  - destruct oword; [|discriminate]. intros [= <- <-]; auto.
  - destruct (nth_error os j) as [[]|]; try discriminate. intros [= <- <-]; auto.
  - destruct oword; [|discriminate]. destruct (0 <=? k); [|discriminate]. intros [= <- <-]. apply qv_ext.
  - destruct (sav os a s) as [[p1 s1]|] eqn:E1; [|discriminate].
    destruct (sav os b s1) as [[p2 s2]|] eqn:E2; [|discriminate]. intros [= <- <-]. eauto using ext_trans.
  - destruct (sav os a s) as [[p1 s1]|] eqn:E1; [|discriminate].
    destruct (sav os b s1) as [[p2 s2]|] eqn:E2; [|discriminate]. intros [= <- <-]. eauto using ext_trans.
  - destruct (sav os a s) as [[p1 s1]|] eqn:E1; [|discriminate].
    destruct (sav os b s1) as [[p2 s2]|] eqn:E2; [|discriminate]. intros [= <- <-]. eauto using ext_trans.
Qed.
Lemma get_int_ext x ae s : grows s (get_int x ae s).
Proof. unfold get_int. destruct (lookup x ae) as [[]|]; simpl; auto. Qed.
Lemma digits_ext w ds ae : forall s, grows s (digits w ds ae s).
Proof.
  induction ds as [|d t IH]; intros s; simpl; auto.
  apply grows_bind; [apply get_int_ext|]. intros; apply grows_bind; [apply sand_grows|].
  intros; apply grows_bind; [apply IH|]. simpl; auto.
Qed.
Lemma hinted_ext w hs os x ae s : grows s (hinted w hs os x ae s).
Proof.
  destruct x; simpl; auto. unfold refine. destruct (lookup x hs) as [[ds N]|]; simpl; auto.
  unfold refine1. apply grows_bind; [apply get_int_ext|]. intros v s1.
  apply grows_bind; [apply digits_ext|]. intros R s2.
  destruct (sav os N s2) as [[n s3]|] eqn:E; simpl; auto. destruct (_ && _); simpl; auto.
  eapply sav_ext; eauto.
Qed.
Lemma sexecs_ext w hs os l : forall ae s, grows s (sexecs w hs os l ae s).
Proof.
  induction l as [|x t IH]; intros ae s; simpl; auto.
  apply grows_bind; [apply sexec_ext|]. intros. apply grows_bind; [apply hinted_ext|]. auto.
Qed.

(** * Relation between abstract and concrete environments.
    [rs x] is the part of an open array beyond the known words. *)
Definition obj_rel (r : positive -> Z) (rest : list Z) (o : aobj) (v : val) : Prop :=
  match o with
  | OInt a => exists z, v = VInt z /\ holds r a z
  | OArr vs open => exists l, v = VArr (l ++ if open then rest else []) /\ Forall2 (holds r) vs l
  end.
Definition env_rel (r : positive -> Z) (rs : string -> list Z) (ae : aenv) (en : env) : Prop :=
  forall x o, lookup x ae = Some o -> exists v, lookup x en = Some v /\ obj_rel r (rs x) o v.

Lemma lookup_upd_eq {A} x (v : A) e : lookup x (upd x v e) = Some v.
Proof.
  induction e as [|[y w] t IH]; simpl.
  - rewrite String.eqb_refl; reflexivity.
  - destruct (String.eqb x y) eqn:E; simpl; [rewrite String.eqb_refl|rewrite E]; auto.
Qed.
Lemma lookup_upd_ne {A} x y (v : A) e : x <> y -> lookup x (upd y v e) = lookup x e.
Proof.
  intros N. induction e as [|[z w] t IH]; simpl.
  - apply String.eqb_neq in N. rewrite N. reflexivity.
  - destruct (String.eqb_spec y z) as [->|Hz]; simpl.
    + apply String.eqb_neq in N. rewrite N. reflexivity.
    + rewrite IH. reflexivity.
Qed.
Lemma env_rel_upd r rs ae en x o v : env_rel r rs ae en -> obj_rel r (rs x) o v ->
  env_rel r rs (upd x o ae) (upd x v en).
Proof.
  intros H Ho y o' Hy. destruct (String.eqb_spec y x) as [->|N].
  - rewrite lookup_upd_eq in Hy. inversion Hy; subst o'. exists v. rewrite lookup_upd_eq. auto.
  - rewrite lookup_upd_ne in Hy by assumption. rewrite lookup_upd_ne by assumption. auto.
Qed.

Lemma Forall2_len {A B} (R : A -> B -> Prop) l l' : Forall2 R l l' -> List.length l = List.length l'.
Proof. induction 1; simpl; congruence. Qed.

Section Sound.
  Variable md : mode.
  Variable cl : string -> list val -> res (list val * list val).
  Variable r : positive -> Z.
  Variable rs : string -> list Z.

  Definition eval_ok (ae : aenv) (en : env) (e : expr) (s : st) : Prop :=
    match seval e ae s with
    | SOk v s' => ext s s' /\ (models r s' -> exists z, eval md e en = Ok (VInt z) /\ holds r v z)
    | SPanic s' => ext s s' /\ (models r s' -> eval md e en = Panic)
    | SFail => True
    end.

  Lemma arith_ok z : in_i64 z = true -> arith md z = Ok z.
  Proof. unfold arith. intros ->; reflexivity. Qed.
  Lemma shamt_ok n : okshift n = true -> shamt md n = Ok n.
  Proof. unfold shamt, okshift. intros ->; reflexivity. Qed.

  (* binary operators: evaluate left then right, then apply [f] *)
  Lemma bin_ok ae en a b s (g : aval -> aval -> st -> sr aval) (f : Z -> Z -> res Z) :
    (forall s, eval_ok ae en a s) -> (forall s, eval_ok ae en b s) ->
    (forall u v s, match g u v s with
       | SOk w s' => ext s s' /\ (models r s' -> forall x y, holds r u x -> holds r v y -> exists z, f x y = Ok z /\ holds r w z)
       | SPanic _ => False | SFail => True end) ->
    match sbind (seval a ae s) (fun u s => sbind (seval b ae s) (fun v s => g u v s)) with
    | SOk w s' => ext s s' /\ (models r s' -> exists z,
        bind (bind (eval md a en) as_int) (fun x => bind (bind (eval md b en) as_int) (fun y =>
        bind (f x y) (fun z => Ok (VInt z)))) = Ok (VInt z) /\ holds r w z)
    | SPanic s' => ext s s' /\ (models r s' ->
        bind (bind (eval md a en) as_int) (fun x => bind (bind (eval md b en) as_int) (fun y =>
        bind (f x y) (fun z => Ok (VInt z)))) = Panic)
    | SFail => True
    end.
  Proof.
    intros Ha Hb Hg. specialize (Ha s). unfold eval_ok in Ha.
    destruct (seval a ae s) as [u s1|s1|]; simpl; auto.
    2:{ destruct Ha as [E Ha]; split; auto. intros M. rewrite (Ha M). reflexivity. }
    destruct Ha as [E1 Ha]. specialize (Hb s1). unfold eval_ok in Hb.
    destruct (seval b ae s1) as [v s2|s2|]; simpl; auto.
    2:{ destruct Hb as [E2 Hb]; split; [eapply ext_trans; eauto|]. intros M.
        destruct (Ha (models_ext _ _ _ E2 M)) as (x & -> & _). simpl. rewrite (Hb M). reflexivity. }
    destruct Hb as [E2 Hb]. specialize (Hg u v s2).
    destruct (g u v s2) as [w s3|s3|]; try contradiction; auto.
    destruct Hg as [E3 Hg]. split; [eauto using ext_trans|]. intros M.
    pose proof (models_ext _ _ _ E3 M) as M2. pose proof (models_ext _ _ _ E2 M2) as M1.
    destruct (Ha M1) as (x & -> & Hx). destruct (Hb M2) as (y & -> & Hy). simpl.
    destruct (Hg M x y Hx Hy) as (z & -> & Hz). simpl. eauto.
  Qed.

  (* unary operators *)
  Lemma un_ok ae en a s (g : aval -> st -> sr aval) (f : Z -> res val) :
    (forall s, eval_ok ae en a s) ->
    (forall u s, match g u s with
       | SOk w s' => ext s s' /\ (models r s' -> forall x, holds r u x -> exists z, f x = Ok (VInt z) /\ holds r w z)
       | SPanic _ => False | SFail => True end) ->
    match sbind (seval a ae s) (fun u s => g u s) with
    | SOk w s' => ext s s' /\ (models r s' -> exists z,
        bind (bind (eval md a en) as_int) f = Ok (VInt z) /\ holds r w z)
    | SPanic s' => ext s s' /\ (models r s' -> bind (bind (eval md a en) as_int) f = Panic)
    | SFail => True
    end.
  Proof.
    intros Ha Hg. specialize (Ha s). unfold eval_ok in Ha.
    destruct (seval a ae s) as [u s1|s1|]; simpl; auto.
    2:{ destruct Ha as [E Ha]; split; auto. intros M. rewrite (Ha M). reflexivity. }
    destruct Ha as [E1 Ha]. specialize (Hg u s1).
    destruct (g u s1) as [w s3|s3|]; try contradiction; auto.
    destruct Hg as [E3 Hg]. split; [eauto using ext_trans|]. intros M.
    pose proof (models_ext _ _ _ E3 M) as M2.
    destruct (Ha M2) as (x & -> & Hx). simpl. apply (Hg M x Hx).
  Qed.

  Lemma chk64_ok (g : aval -> aval -> aval) (f : Z -> Z -> Z) :
    (forall u v x y, holds r u x -> holds r v y -> holds r (g u v) (f x y)) ->
    forall u v s, match chk64 (g u v) s with
       | SOk w s' => ext s s' /\ (models r s' -> forall x y, holds r u x -> holds r v y ->
             exists z, arith md (f x y) = Ok z /\ holds r w z)
       | SPanic _ => False | SFail => True end.
  Proof.
    intros H u v s. unfold chk64. destruct (ok64 (g u v)) eqn:E; auto.
    split; auto. intros _ x y Hx Hy. exists (f x y). split; [|auto].
    apply arith_ok. eapply ok64_sound; eauto.
  Qed.

  Lemma get_idx_ok ae en a i s : env_rel r rs ae en -> eval_ok ae en (EIdx (EVar a) (EInt i)) s.
  Proof.
    intros R. unfold eval_ok. cbn [seval]. unfold get_idx.
    destruct (lookup a ae) as [[v|vs open]|] eqn:L; auto.
    destruct (Z.ltb_spec i 0); auto.
    destruct (R _ _ L) as (v & Lv & l & -> & F).
    assert (Ev : eval md (EIdx (EVar a) (EInt i)) en =
      match nth_error (l ++ (if open then rs a else [])) (Z.to_nat i) with Some v => Ok (VInt v) | None => Panic end).
    { cbn [eval]. unfold get. rewrite Lv. simpl. unfold znth.
      destruct (Z.ltb_spec i 0); [lia|]. reflexivity. }
    destruct (nth_error vs (Z.to_nat i)) as [w|] eqn:N.
    - split; auto. intros _. rewrite Ev.
      assert (exists z, nth_error l (Z.to_nat i) = Some z /\ holds r w z) as (z & Nz & Hz).
      { clear -F N. revert N. generalize (Z.to_nat i) as n. induction F; intros [|n]; simpl; try discriminate.
        - intros [= <-]. eauto.
        - auto. }
      rewrite nth_error_app1 by (apply nth_error_Some; congruence). rewrite Nz. eauto.
    - destruct open; auto. split; auto. intros _. rewrite Ev, app_nil_r.
      apply nth_error_None in N. rewrite (Forall2_len _ _ _ F) in N.
      apply nth_error_None in N. rewrite N. reflexivity.
  Qed.

  Lemma seval_sound ae en : env_rel r rs ae en -> forall e s, eval_ok ae en e s.
  Proof.
    intros R. fix IH 1. intros e s.
    destruct e as [z|l|x|a i|a b|a b|a b|a b|a b|a b|a b|a b|a|a b|a b|a b|t a|a n]; try exact I.
    - (* EInt *) unfold eval_ok; simpl. split; auto. intros _. exists z. split; auto.
      split; cbn [ap alo ahi]; [rewrite pconst_eval; auto|lia].
    - (* EVar *) unfold eval_ok; simpl. unfold get_int.
      destruct (lookup x ae) as [[v|]|] eqn:L; auto. split; auto. intros _.
      destruct (R _ _ L) as (w & Lw & z & -> & Hz). unfold get. rewrite Lw. eauto.
    - (* EIdx *) destruct a; try exact I. destruct i; try exact I. apply get_idx_ok; auto.
    - (* EAdd *) apply (bin_ok ae en a b s _ (fun x y => arith md (x + y)) (IH a) (IH b)).
      apply (chk64_ok sadd Z.add (sadd_sound r)).
    - (* ESub *) apply (bin_ok ae en a b s _ (fun x y => arith md (x - y)) (IH a) (IH b)).
      apply (chk64_ok ssub Z.sub (ssub_sound r)).
    - (* EMul *) apply (bin_ok ae en a b s _ (fun x y => arith md (x * y)) (IH a) (IH b)).
      apply (chk64_ok smul Z.mul (smul_sound r)).
    - (* EAnd *)
      destruct b as [m| | | | | | | | | | | | | | | | | ]; try (destruct a as [| | | | | | | | |a []| | | | | | | | ]; exact I).
      assert (Gen : match sbind (seval a ae s) (fun u s => sand u m s) with
        | SOk v s' => ext s s' /\ (models r s' -> exists z, eval md (EAnd a (EInt m)) en = Ok (VInt z) /\ holds r v z)
        | SPanic s' => ext s s' /\ (models r s' -> eval md (EAnd a (EInt m)) en = Panic)
        | SFail => True end).
      { apply (un_ok ae en a s (fun u s => sand u m s) (fun x => Ok (VInt (Z.land x m))) (IH a)).
        intros u s1. destruct (sand u m s1) as [w s2|s2|] eqn:E; auto.
        - split; [eapply sand_ext; eauto|]. intros M x Hx. eexists; split; [reflexivity|].
          eapply sand_sound; eauto.
        - unfold sand in E. destruct (m =? 0); [discriminate|]. destruct (_ && _); discriminate. }
      destruct a as [| | | | | | | | |a n| | | | | | | | ]; try exact Gen.
      destruct n as [n| | | | | | | | | | | | | | | | | ]; try exact Gen.
      clear Gen. unfold eval_ok. cbn [seval].
      destruct (okshift n && (0 <=? m) && (m <? 2 ^ 63)) eqn:E; auto.
      rewrite !andb_true_iff, Z.leb_le, Z.ltb_lt in E. destruct E as [[E1 E2] E3].
      pose proof (un_ok ae en a s (fun u s => sand (sshl u n) m s)
        (fun x => Ok (VInt (Z.land (wrap 64 (Z.shiftl x n)) m))) (IH a)) as U.
      cbn [eval bind as_int]. rewrite (shamt_ok n E1).
      match type of U with (?A -> ?B) => assert (HA : A) end.
      { intros u s1. destruct (sand (sshl u n) m s1) as [w s2|s2|] eqn:E; auto.
        - split; [eapply sand_ext; eauto|]. intros M x Hx. eexists; split; [reflexivity|].
          replace (Z.land (wrap 64 (Z.shiftl x n)) m) with (Z.land (Z.shiftl x n) m).
          + eapply sand_sound; eauto. apply sshl_sound; auto.
            unfold okshift in E1. rewrite andb_true_iff, Z.leb_le in E1. lia.
          + assert (Hm : 0 <= m < 2 ^ 64) by (split; [lia|]; change (2 ^ 64) with (2 * 2 ^ 63); lia).
            rewrite <- (land_low (Z.shiftl x n) m 64 ltac:(lia) Hm),
              <- (land_low (wrap 64 (Z.shiftl x n)) m 64 ltac:(lia) Hm), wrap_mod by lia. reflexivity.
        - unfold sand in E. destruct (m =? 0); [discriminate|]. destruct (_ && _); discriminate. }
      specialize (U HA). clear HA.
      match goal with |- context[bind (bind (bind ?X ?f) as_int) ?g] =>
        replace (bind (bind (bind X f) as_int) g) with
          (bind X (fun x => Ok (VInt (Z.land (wrap 64 (Z.shiftl x n)) m)))) by (destruct X; reflexivity) end.
      exact U.
    - (* EOr *) apply (bin_ok ae en a b s _ (fun x y => Ok (Z.lor x y)) (IH a) (IH b)).
      intros u v s1. destruct (disjoint u v || disjoint v u) eqn:E; auto. split; auto.
      intros _ x y Hx Hy. eexists; split; [reflexivity|].
      apply orb_true_iff in E as [E|E].
      + rewrite (disjoint_sound r u v x y) by assumption. apply sadd_sound; auto.
      + rewrite Z.lor_comm, (disjoint_sound r v u y x), Z.add_comm by assumption. apply sadd_sound; auto.
    - (* EShl *) destruct b as [n| | | | | | | | | | | | | | | | | ]; try exact I.
      unfold eval_ok; cbn [seval]. destruct (okshift n) eqn:E; auto.
      pose proof (un_ok ae en a s (fun u s => chk64 (sshl u n) s)
        (fun x => Ok (VInt (wrap 64 (Z.shiftl x n)))) (IH a)) as U.
      cbn [eval bind as_int]. rewrite (shamt_ok n E).
      assert (Hn : 0 <= n) by (unfold okshift in E; rewrite andb_true_iff, Z.leb_le in E; lia).
      match type of U with (?A -> ?B) => assert (HA : A) end.
      { intros u s1. unfold chk64. destruct (ok64 (sshl u n)) eqn:O; auto. split; auto.
        intros _ x Hx. eexists; split; [reflexivity|]. pose proof (sshl_sound r u n x Hn Hx) as Hs.
        rewrite wrap64_id; auto. eapply ok64_sound; eauto. }
      exact (U HA).
    - (* EShr *) destruct b as [n| | | | | | | | | | | | | | | | | ]; try exact I.
      unfold eval_ok; cbn [seval]. destruct (okshift n) eqn:E; auto.
      pose proof (un_ok ae en a s (fun u s => let q := qv u n s in SOk (fst q) (snd q))
        (fun x => Ok (VInt (Z.shiftr x n))) (IH a)) as U.
      cbn [eval bind as_int]. rewrite (shamt_ok n E).
      assert (Hn : 0 <= n) by (unfold okshift in E; rewrite andb_true_iff, Z.leb_le in E; lia).
      match type of U with (?A -> ?B) => assert (HA : A) end.
      { intros u s1. cbv zeta. split; [apply qv_ext|].
        intros M x Hx. eexists; split; [reflexivity|]. rewrite Z.shiftr_div_pow2 by auto.
        apply qv_sound; auto. }
      exact (U HA).
    - (* ECast *)
      pose proof (un_ok ae en a s (fun u s =>
        if match t with U8 => (0 <=? alo u) && (ahi u <? 256) | I32 => (- 2 ^ 31 <=? alo u) && (ahi u <? 2 ^ 31)
           | I64 => ok64 u end then SOk u s else SFail)
        (fun x => Ok (VInt (cast t x))) (IH a)) as U.
      apply U. clear U. intros u s1.
      destruct (match t with U8 => _ | I32 => _ | I64 => _ end) eqn:E; auto. split; auto.
      intros _ x Hx. eexists; split; [reflexivity|].
      replace (cast t x) with x; auto. destruct t; simpl.
      + rewrite andb_true_iff, Z.leb_le, Z.ltb_lt in E. destruct Hx. rewrite Z.mod_small; lia.
      + rewrite andb_true_iff, Z.leb_le, Z.ltb_lt in E. destruct Hx. symmetry. apply wrap_id; [lia|].
        change (32 - 1) with 31. lia.
      + symmetry. apply wrap64_id. eapply ok64_sound; eauto.
  Qed.

  Lemma sexec_sound ae en x s : env_rel r rs ae en ->
    match sexec x ae s with
    | SOk ae' s' => ext s s' /\ (models r s' -> exists en', exec md cl x en = Ok en' /\ env_rel r rs ae' en')
    | SPanic s' => ext s s' /\ (models r s' -> exec md cl x en = Panic)
    | SFail => True
    end.
  Proof.
    intros R. destruct x as [x e|a i e|ds f args|x lo hi b|x g lo hi|f t|f u p b e]; try exact I.
    - simpl. pose proof (seval_sound ae en R e s) as H. unfold eval_ok in H.
      destruct (seval e ae s) as [v s1|s1|]; simpl; auto; destruct H as [E H]; split; auto; intros M; specialize (H M).
      + destruct H as (z & -> & Hz). simpl. eexists; split; [reflexivity|].
        apply env_rel_upd; auto. simpl. eauto.
      + rewrite H. reflexivity.
    - destruct i as [i| | | | | | | | | | | | | | | | | ]; try exact I.
      simpl. pose proof (seval_sound ae en R e s) as H. unfold eval_ok in H.
      destruct (seval e ae s) as [v s1|s1|]; simpl; auto.
      2:{ destruct H as [E H]; split; auto; intros M; rewrite (H M); reflexivity. }
      destruct H as [E H]. destruct (lookup a ae) as [[w|vs open]|] eqn:L; auto.
      destruct (Z.ltb_spec i 0); auto.
      destruct (R _ _ L) as (w & Lw & l & -> & F).
      assert (Z0 : (i <? 0) = false) by (apply Z.ltb_ge; lia).
      destruct (aset vs (Z.to_nat i) v) as [vs'|] eqn:A.
      + split; auto. intros M. destruct (H M) as (z & -> & Hz). simpl. unfold get. rewrite Lw. simpl.
        unfold zset. rewrite Z0.
        assert (exists l', upd_nth (l ++ (if open then rs a else [])) (Z.to_nat i) z
                  = Some (l' ++ (if open then rs a else [])) /\ Forall2 (holds r) vs' l') as (l' & -> & F').
        { clear -F A Hz. revert vs' A. generalize (Z.to_nat i) as n. induction F as [|a0 b0 vs l H F IH]; intros n vs'.
          - destruct n; discriminate.
          - destruct n as [|n]; simpl.
            + intros [= <-]. exists (z :: l). split; auto.
            + destruct (aset vs n v) eqn:A; [|discriminate]. intros [= <-].
              destruct (IH n l0 A) as (l' & E & F'). rewrite E. exists (b0 :: l'). split; auto. }
        eexists; split; [reflexivity|]. apply env_rel_upd; auto. simpl. eauto.
      + destruct open; auto. split; auto. intros M. destruct (H M) as (z & -> & Hz). simpl.
        unfold get. rewrite Lw. simpl. unfold zset. rewrite Z0, app_nil_r.
        replace (upd_nth l (Z.to_nat i) z) with (@None (list Z)); auto. symmetry.
        clear -F A. revert A. generalize (Z.to_nat i) as n. induction F as [|a0 b0 vs l H F IH]; intros n.
        * reflexivity.
        * destruct n; simpl; [discriminate|]. destruct (aset vs n v) eqn:A; [discriminate|].
          rewrite (IH _ A). reflexivity.
  Qed.

  Lemma get_int_sound ae en x s v s' : env_rel r rs ae en -> get_int x ae s = SOk v s' ->
    exists z, lookup x en = Some (VInt z) /\ holds r v z.
  Proof.
    intros R. unfold get_int. destruct (lookup x ae) as [[w|]|] eqn:L; try discriminate.
    intros [= <- <-]. destruct (R _ _ L) as (u & Lu & z & -> & Hz). eauto.
  Qed.
  Lemma digits_sound w ae en : 0 <= w -> env_rel r rs ae en -> forall ds s p s',
    digits w ds ae s = SOk p s' -> models r s' ->
    0 <= peval r p < 2 ^ (w * Z.of_nat (List.length ds)).
  Proof.
    intros Hw R. induction ds as [|d t IH]; intros s p s'.
    - intros [= <- <-] _. change (peval r []) with 0. change (Z.of_nat (List.length (@nil string))) with 0.
      rewrite Z.mul_0_r, Z.pow_0_r. lia.
    - cbn [digits]. destruct (get_int d ae s) as [v s1| |] eqn:E1; try discriminate. cbn [sbind].
      destruct (sand v (2 ^ w - 1) s1) as [u s2| |] eqn:E2; try discriminate. cbn [sbind].
      destruct (digits w t ae s2) as [q s3| |] eqn:E3; try discriminate. cbn [sbind].
      intros [= <- <-] M. destruct (get_int_sound _ _ _ _ _ _ R E1) as (z & _ & Hz).
      pose proof (digits_ext w t ae s2) as X. rewrite E3 in X. simpl in X.
      pose proof (sand_sound r _ _ _ _ _ z E2 (models_ext _ _ _ X M) Hz) as [H1 _].
      specialize (IH _ _ _ E3 M). rewrite padd_eval, pscale_eval, <- H1.
      pose proof (pow2_pos w Hw). pose proof (land_mask z 0 w ltac:(lia)) as LM.
      rewrite Z.pow_0_r, Z.div_1_r, Z.mul_1_l in LM. rewrite LM.
      pose proof (Z.mod_pos_bound z (2 ^ w) ltac:(lia)). pose proof (Z.div_mod z (2 ^ w) ltac:(lia)).
      replace (Z.of_nat (List.length (d :: t))) with (1 + Z.of_nat (List.length t)) by (simpl List.length; lia).
      rewrite Z.mul_add_distr_l, Z.mul_1_r, Z.pow_add_r by lia. nia.
  Qed.

  (* the initial objects, to which specifications refer *)
  Variable os : list aobj.
  Variable rvs : list (list Z * val).
  Hypothesis Hos : Forall2 (fun o rv => obj_rel r (fst rv) o (snd rv)) os rvs.

  Lemma oword_ok j i v : oword os j i = Some v -> holds r v (word (map snd rvs) j i).
  Proof.
    unfold oword, word. revert j. induction Hos as [|o [rest w] os' rvs' H F IH]; intros [|j]; simpl; try discriminate.
    - destruct o as [|vs op]; [discriminate|]. destruct H as (l & Hw & Fl). simpl in Hw. subst w.
      intros N. clear -Fl N. revert i N. induction Fl as [|a z vs l Ha Fl IH]; intros [|i]; simpl; try discriminate.
      + intros [= <-]; auto.
      + apply IH.
    - apply IH; auto.
  Qed.
  Lemma sav_sound : forall x s p s', sav os x s = Some (p, s') -> models r s' -> holds r p (xden (map snd rvs) x).
  Proof.
    induction x as [z|j i|j|j i k|a IHa b IHb|a IHa b IHb|a IHa b IHb]; intros s p s'; simpl.
    - intros [= <- <-] _. split; cbn [ap alo ahi]; [rewrite pconst_eval; auto|lia].
    - destruct (oword os j i) eqn:E; [|discriminate]. intros [= <- <-] _. apply oword_ok; auto.
    - destruct (nth_error os j) as [[v|]|] eqn:E; try discriminate. intros [= <- <-] _.
      revert j E. clear -Hos. induction Hos as [|o [rest w] os' rvs' H F IH]; intros [|j]; simpl; try discriminate; [|apply IH; auto].
      intros [= ->]. destruct H as (z & Hw & Hz). simpl in Hw. subst w. exact Hz.
    - destruct (oword os j i) as [v|] eqn:E; [|discriminate]. destruct (Z.leb_spec 0 k); [|discriminate].
      intros [= <- <-] M. eapply qv_sound; eauto. apply oword_ok; auto.
    - destruct (sav os a s) as [[p1 s1]|] eqn:E1; [|discriminate].
      destruct (sav os b s1) as [[p2 s2]|] eqn:E2; [|discriminate]. intros [= <- <-] M.
      apply sadd_sound; [|eauto]. eapply IHa; eauto. eapply models_ext; [eapply sav_ext; eauto|auto].
    - destruct (sav os a s) as [[p1 s1]|] eqn:E1; [|discriminate].
      destruct (sav os b s1) as [[p2 s2]|] eqn:E2; [|discriminate]. intros [= <- <-] M.
      apply ssub_sound; [|eauto]. eapply IHa; eauto. eapply models_ext; [eapply sav_ext; eauto|auto].
    - destruct (sav os a s) as [[p1 s1]|] eqn:E1; [|discriminate].
      destruct (sav os b s1) as [[p2 s2]|] eqn:E2; [|discriminate]. intros [= <- <-] M.
      apply smul_sound; [|eauto]. eapply IHa; eauto. eapply models_ext; [eapply sav_ext; eauto|auto].
  Qed.

  Lemma hinted_sound w hs x ae en s ae' s' : env_rel r rs ae en ->
    hinted w hs os x ae s = SOk ae' s' -> models r s' -> env_rel r rs ae' en.
  Proof.
    intros R. destruct x as [x e|a i e|ds f args|x lo hi b|x g lo hi|f t|f u p b e]; simpl;
      try (intros [= <- <-]; auto; fail).
    unfold refine. destruct (lookup x hs) as [[ds N]|]; [|intros [= <- <-]; auto].
    unfold refine1. destruct (get_int x ae s) as [v s1| |] eqn:E1; try discriminate. cbn [sbind].
    destruct (digits w ds ae s1) as [p s2| |] eqn:E2; try discriminate. cbn [sbind].
    destruct (sav os N s2) as [[n s3]|] eqn:E3; try discriminate.
    destruct (_ && _) eqn:E4; try discriminate. rewrite andb_true_iff, Z.leb_le in E4.
    destruct E4 as [Hw E4]. intros [= <- <-] M.
    destruct (get_int_sound _ _ _ _ _ _ R E1) as (z & Lz & Hz).
    pose proof (sav_sound _ _ _ _ E3 M) as [N1 N2].
    pose proof (digits_sound w ae en Hw R _ _ _ _ E2 (models_ext _ _ _ (sav_ext _ _ _ _ _ E3) M)) as D.
    destruct (pdivisible_sound r _ _ E4) as [k Hk]. rewrite psub_eval, padd_eval, pscale_eval, Z.mul_0_l in Hk.
    set (m := 2 ^ (w * Z.of_nat (List.length ds))) in *.
    assert (Hm : 0 < m) by (apply Z.pow_pos_nonneg; nia).
    destruct Hz as [Hz1 Hz2]. rewrite <- N1, <- Hz1 in Hk.
    assert (Ez : z = xden (map snd rvs) N / m) by (apply Z.div_unique with (peval r p); lia).
    assert (alo n / m <= z <= ahi n / m) by (rewrite Ez; split; apply Z.div_le_mono; lia).
    intros y o Ly. destruct (String.eqb_spec y x) as [->|Ny].
    - rewrite lookup_upd_eq in Ly. inversion Ly; subst o. exists (VInt z). split; auto.
      exists z. split; auto. split; cbn [ap alo ahi]; auto. lia.
    - rewrite lookup_upd_ne in Ly by auto. auto.
  Qed.

  Lemma sexecs_sound w hs l : forall ae en s, env_rel r rs ae en ->
    match sexecs w hs os l ae s with
    | SOk ae' s' => models r s' -> exists en', exec_list md cl l en = Ok en' /\ env_rel r rs ae' en'
    | SPanic s' => models r s' -> exec_list md cl l en = Panic
    | SFail => True
    end.
  Proof.
    induction l as [|x t IH]; intros ae en s R; simpl; [eauto|].
    pose proof (sexec_sound ae en x s R) as H.
    destruct (sexec x ae s) as [ae1 s1|s1|]; simpl; auto.
    2:{ intros M; rewrite (proj2 H M); reflexivity. }
    destruct H as [E H].
    pose proof (hinted_ext w hs os x ae1 s1) as E1.
    destruct (hinted w hs os x ae1 s1) as [ae1' s1'|s1'|] eqn:HI; simpl in *; auto.
    2:{ exfalso. clear -HI. destruct x; simpl in HI; try discriminate. unfold refine in HI.
        destruct (lookup x hs) as [[ds N]|]; [|discriminate]. unfold refine1 in HI.
        assert (G : forall y s0 q, get_int y ae1 s0 <> SPanic q).
        { intros y s0 q. unfold get_int. destruct (lookup y ae1) as [[]|]; discriminate. }
        destruct (get_int x ae1 s1) as [v s2|s2|] eqn:E1; try discriminate; [|apply (G _ _ _ E1)].
        cbn [sbind] in HI.
        assert (D : forall l s0 q, digits w l ae1 s0 <> SPanic q).
        { clear -G. induction l as [|d l IH]; intros s0 q; simpl; [discriminate|].
          destruct (get_int d ae1 s0) as [a sa|sa|] eqn:E; simpl; try discriminate; [|intros _; apply (G _ _ _ E)].
          destruct (sand a (2 ^ w - 1) sa) as [u su|su|] eqn:Es; simpl; try discriminate.
          - destruct (digits w l ae1 su) eqn:Ed; simpl; try discriminate. intros _. apply (IH _ _ Ed).
          - exfalso. unfold sand in Es. destruct (_ =? 0); [discriminate|]. destruct (_ && _); discriminate. }
        destruct (digits w ds ae1 s2) as [p s3|s3|] eqn:E2; try discriminate; [|apply (D _ _ _ E2)].
        cbn [sbind] in HI. destruct (sav os N s3) as [[n s4]|]; [|discriminate]. destruct (_ && _); discriminate. }
    pose proof (sexecs_ext w hs os t ae1' s1') as E2.
    destruct (sexecs w hs os t ae1' s1') as [ae2 s2|s2|] eqn:T; auto; intros M;
      pose proof (models_ext _ _ _ E2 M) as M1;
      destruct (H (models_ext _ _ _ E1 M1)) as (en1 & -> & R1); simpl;
      pose proof (hinted_sound _ _ _ _ _ _ _ _ R1 HI M1) as R1';
      specialize (IH ae1' en1 s1' R1'); rewrite T in IH; apply (IH M).
  Qed.
End Sound.

(** * Existence of a valuation for a well-scoped table *)
Definition tbl_next (n0 : positive) (t : list (positive * (poly * Z))) : positive :=
  match t with [] => n0 | (a, _) :: _ => Pos.succ a end.
Fixpoint tbl_ok (n0 : positive) (t : list (positive * (poly * Z))) : bool :=
  match t with
  | [] => true
  | (a, (P, k)) :: t' => (tbl_next n0 t' <=? a)%positive && pscoped a P && tbl_ok n0 t'
  end.

Lemma tbl_ok_below n0 t : tbl_ok n0 t = true ->
  (n0 <= tbl_next n0 t)%positive /\
  forall a P k, In (a, (P, k)) t -> (n0 <= a < tbl_next n0 t)%positive /\ pscoped a P = true.
Proof.
  induction t as [|[a [P k]] t IH]; simpl.
  - split; [lia|tauto].
  - rewrite !andb_true_iff, Pos.leb_le. intros [[H1 H2] H3]. destruct (IH H3) as [IH1 IH2].
    split; [lia|]. intros b Q j [[= <- <- <-]|Hin]; [split; [lia|auto]|].
    destruct (IH2 _ _ _ Hin). split; [lia|auto].
Qed.

Lemma tbl_build n0 t r0 : tbl_ok n0 t = true ->
  exists r, (forall a, (a < n0)%positive -> r a = r0 a) /\
            forall a P k, In (a, (P, k)) t -> r a = peval r P / 2 ^ k.
Proof.
  induction t as [|[a [P k]] t IH]; simpl.
  - intros _. exists r0. split; [auto|tauto].
  - rewrite !andb_true_iff, Pos.leb_le. intros [[H1 H2] H3].
    destruct (IH H3) as (r & A & B). destruct (tbl_ok_below _ _ H3) as [C D].
    exists (fun b => if Pos.eqb b a then peval r P / 2 ^ k else r b).
    assert (E : forall b, (b < a)%positive -> (if Pos.eqb b a then peval r P / 2 ^ k else r b) = r b).
    { intros b Hb. destruct (Pos.eqb_spec b a); [lia|reflexivity]. }
    split.
    + intros b Hb. rewrite E by lia. auto.
    + intros b Q j [[= <- <- <-]|Hin].
      * rewrite Pos.eqb_refl. f_equal. eapply pscoped_eval; [exact H2|].
        intros c Hc. symmetry. apply E. exact Hc.
      * destruct (D _ _ _ Hin) as [D1 D2].
        rewrite E by lia. rewrite (B _ _ _ Hin). f_equal. eapply pscoped_eval; [exact D2|].
        intros c Hc. symmetry. apply E. lia.
Qed.

(** * Inputs *)
(* an integer or an array of words, each with its interval; an open array may be longer *)
Inductive desc := DInt (lo hi : Z) | DArr (bs : list (Z * Z)) (open : bool).

Definition inb (b : Z * Z) (z : Z) : Prop := fst b <= z <= snd b.
Definition arg_ok (d : desc) (v : val) : Prop :=
  match d with
  | DInt lo hi => exists z, v = VInt z /\ lo <= z <= hi
  | DArr bs open => exists l, v = VArr l /\ Forall2 inb bs (firstn (List.length bs) l) /\
                    (open = false -> List.length l = List.length bs)
  end.

Definition init_word (n : nat) (b : Z * Z) : aval :=
  mkav (if fst b =? snd b then pconst (fst b) else patom (Pos.of_nat n)) (fst b) (snd b).
Fixpoint init_words (n : nat) (bs : list (Z * Z)) : list aval :=
  match bs with [] => [] | b :: t => init_word n b :: init_words (S n) t end.
Definition init_obj (n : nat) (d : desc) : aobj :=
  match d with
  | DInt lo hi => OInt (init_word n (lo, hi))
  | DArr bs open => OArr (init_words n bs) open
  end.
Definition width (d : desc) : nat := match d with DInt _ _ => 1 | DArr bs _ => List.length bs end.
Fixpoint init_objs (n : nat) (ds : list desc) : list aobj :=
  match ds with [] => [] | d :: t => init_obj n d :: init_objs (n + width d) t end.
Definition total (ds : list desc) : nat := fold_right (fun d n => (width d + n)%nat) O ds.

Definition known (d : desc) (v : val) : list Z :=
  match d, v with
  | DArr bs _, VArr l => firstn (List.length bs) l
  | DInt _ _, VInt z => [z]
  | _, _ => []
  end.
Definition rest_of (d : desc) (v : val) : list Z :=
  match d, v with DArr bs _, VArr l => skipn (List.length bs) l | _, _ => [] end.

Fixpoint map2 {A B C} (f : A -> B -> C) (l : list A) (m : list B) : list C :=
  match l, m with a :: l', b :: m' => f a b :: map2 f l' m' | _, _ => [] end.

Definition agrees (r : positive -> Z) (n : nat) (l : list Z) : Prop :=
  forall i v, nth_error l i = Some v -> r (Pos.of_nat (n + i)) = v.
Lemma agrees_cons r n x l : agrees r n (x :: l) -> r (Pos.of_nat n) = x /\ agrees r (S n) l.
Proof.
  intros H. split.
  - rewrite <- (H O x eq_refl). f_equal. f_equal. lia.
  - intros i v Hi. rewrite <- (H (S i) v Hi). f_equal. f_equal. lia.
Qed.
Lemma agrees_app r n l m : agrees r n (l ++ m) -> agrees r n l /\ agrees r (n + List.length l) m.
Proof.
  intros H. split; intros i v Hi.
  - apply H. rewrite nth_error_app1; auto. apply nth_error_Some. congruence.
  - rewrite <- Nat.add_assoc. apply H. rewrite nth_error_app2 by lia.
    rewrite <- Hi. f_equal. lia.
Qed.
Lemma agrees_exists l : exists r, agrees r 1 l.
Proof.
  exists (fun a => nth (Pos.to_nat a - 1) l 0). intros i v H.
  rewrite Nat2Pos.id by lia. replace (1 + i - 1)%nat with i by lia. apply nth_error_nth; auto.
Qed.

Lemma init_word_ok r n b z : inb b z -> r (Pos.of_nat n) = z -> holds r (init_word n b) z.
Proof.
  intros H E. unfold init_word, holds. cbn [ap alo ahi]. split; [|exact H].
  destruct (Z.eqb_spec (fst b) (snd b)).
  - rewrite pconst_eval. unfold inb in H. lia.
  - rewrite patom_eval. auto.
Qed.
Lemma init_words_ok r bs l : Forall2 inb bs l -> forall n, agrees r n l -> Forall2 (holds r) (init_words n bs) l.
Proof.
  induction 1 as [|b z bs l Hb F IH]; intros n A; simpl; [constructor|].
  apply agrees_cons in A as [A1 A2]. constructor; auto. apply init_word_ok; auto.
Qed.
Lemma init_obj_ok r n d v : arg_ok d v -> agrees r n (known d v) -> obj_rel r (rest_of d v) (init_obj n d) v.
Proof.
  destruct d as [lo hi|bs open]; simpl.
  - intros (z & -> & H) A. simpl in A. apply agrees_cons in A as [A _].
    exists z. split; auto. apply init_word_ok; auto.
  - intros (l & -> & F & L) A. simpl in *. exists (firstn (List.length bs) l). split.
    + destruct open.
      * rewrite firstn_skipn. reflexivity.
      * rewrite app_nil_r, firstn_all2; auto. rewrite (L eq_refl). auto.
    + apply init_words_ok; auto.
Qed.
Lemma known_len d v : arg_ok d v -> List.length (known d v) = width d.
Proof.
  destruct d; simpl; [intros (z & -> & _); reflexivity|].
  intros (l & -> & F & _). rewrite <- (Forall2_len _ _ _ F). reflexivity.
Qed.
Lemma init_objs_ok r ds args : Forall2 arg_ok ds args -> forall n,
  agrees r n (List.concat (map2 known ds args)) ->
  Forall2 (fun o rv => obj_rel r (fst rv) o (snd rv)) (init_objs n ds) (combine (map2 rest_of ds args) args)
  /\ List.length (map2 rest_of ds args) = List.length args.
Proof.
  induction 1 as [|d v ds args H F IH]; intros n A; simpl; [split; constructor|].
  simpl in A. apply agrees_app in A as [A1 A2]. rewrite known_len in A2 by auto.
  destruct (IH _ A2). split; [|f_equal; auto].
  constructor; auto. simpl. apply init_obj_ok; auto.
Qed.

Definition rests (ps : list string) (l : list (list Z)) (x : string) : list Z :=
  match lookup x (combine ps l) with Some r => r | None => [] end.
Lemma init_env_rel r ps : forall os rvs,
  Forall2 (fun o rv => obj_rel r (fst rv) o (snd rv)) os rvs ->
  env_rel r (rests ps (map fst rvs)) (combine ps os) (combine ps (map snd rvs)).
Proof.
  unfold env_rel, rests. induction ps as [|p ps IH]; intros os rvs F x o; simpl; [discriminate|].
  destruct F as [|o' [rest v] os rvs H F]; simpl; [discriminate|].
  destruct (String.eqb x p); [|apply IH; auto]. intros [= <-]. eauto.
Qed.

(** the number denoted by words of w bits each, least significant first *)
Definition wsum (w : Z) (ws : list Z) : Z := fold_right (fun x acc => x + 2 ^ w * acc) 0 ws.
Definition wsum_p (w : Z) (vs : list aval) : poly :=
  fold_right (fun v acc => padd (ap v) (pscale (2 ^ w) acc)) [] vs.
Lemma wsum_p_ok r w vs ws : Forall2 (holds r) vs ws -> peval r (wsum_p w vs) = wsum w ws.
Proof.
  induction 1 as [|v z vs ws H F IH]; [reflexivity|].
  change (peval r (padd (ap v) (pscale (2 ^ w) (wsum_p w vs))) = z + 2 ^ w * wsum w ws).
  rewrite padd_eval, pscale_eval, IH. destruct H as [-> _]. reflexivity.
Qed.

(** * The check *)
Record kspec := mkks {
  ks_in : list desc;            (* argument intervals *)
  ks_out : nat;                 (* which argument is the output array *)
  ks_w : Z;                     (* bits per output word *)
  ks_mod : Z;                   (* modulus of the congruence; 0 means equality *)
  ks_bounds : list (Z * Z);     (* output word intervals *)
  ks_val : sexp;                (* value of the output *)
  ks_hints : hints }.

Definition target (x : stmt) : string := match x with SLet x _ => x | SSet a _ _ => a | _ => EmptyString end.
Fixpoint inB (b : list (Z * Z)) (vs : list aval) : bool :=
  match b, vs with
  | [], [] => true
  | (l, h) :: b', v :: vs' => (l <=? alo v) && (ahi v <=? h) && inB b' vs'
  | _, _ => false
  end.
Fixpoint nodupb (l : list string) : bool :=
  match l with [] => true | x :: t => negb (existsb (String.eqb x) t) && nodupb t end.

Definition kinit (fn : func) (ds : list desc) : aenv * st :=
  (combine (f_params fn) (init_objs 1 ds), mkst (Pos.of_nat (1 + total ds)) []).
Definition params_ok (fn : func) (ds : list desc) : bool :=
  Nat.eqb (List.length (f_params fn)) (List.length ds) && nodupb (f_params fn).

Definition kcheck (fn : func) (ks : kspec) : bool :=
  let ds := ks_in ks in
  let n0 := Pos.of_nat (1 + total ds) in
  params_ok fn ds &&
  match f_rets fn with [] => true | _ => false end &&
  match nth_error (f_params fn) (ks_out ks) with
  | None => false
  | Some xo =>
      forallb (fun p => String.eqb p xo || negb (existsb (fun s => String.eqb p (target s)) (f_body fn))) (f_params fn) &&
      match sexecs (ks_w ks) (ks_hints ks) (init_objs 1 ds) (f_body fn) (fst (kinit fn ds)) (snd (kinit fn ds)) with
      | SOk ae s =>
          match lookup xo ae, nth_error ds (ks_out ks) with
          | Some (OArr vs open), Some (DArr bs open') =>
              match sav (init_objs 1 ds) (ks_val ks) s with
              | Some (p, s') =>
                  tbl_ok n0 (s_tbl s') && inB (ks_bounds ks) vs &&
                  Nat.eqb (List.length vs) (List.length bs) && Bool.eqb open open' &&
                  pdivisible (ks_mod ks) (psub (wsum_p (ks_w ks) vs) (ap p))
              | None => false
              end
          | _, _ => false
          end
      | _ => false
      end
  end.

(* every input in range makes the function panic *)
Definition kpanic (fn : func) (ds : list desc) : bool :=
  params_ok fn ds &&
  match sexecs 0 [] (init_objs 1 ds) (f_body fn) (fst (kinit fn ds)) (snd (kinit fn ds)) with
  | SPanic s => tbl_ok (Pos.of_nat (1 + total ds)) (s_tbl s)
  | _ => false
  end.

Fixpoint set_nth {A} (n : nat) (v : A) (l : list A) : list A :=
  match l, n with
  | [], _ => []
  | _ :: t, O => v :: t
  | h :: t, S k => h :: set_nth k v t
  end.

Lemma nodupb_ok l : nodupb l = true -> NoDup l.
Proof.
  induction l as [|x t IH]; simpl; [constructor|]. rewrite andb_true_iff, negb_true_iff.
  intros [H1 H2]. constructor; auto. intros Hin.
  assert (existsb (String.eqb x) t = true); [|congruence].
  apply existsb_exists. exists x. split; auto. apply String.eqb_refl.
Qed.
Lemma frame_stmt md cl x s en en' s0 ae ae' s1 : sexec s ae s0 = SOk ae' s1 ->
  exec md cl s en = Ok en' -> x <> target s -> lookup x en' = lookup x en.
Proof.
  destruct s as [y e|a i e|ds f args|y lo hi b|y g lo hi|f t0|f u p b e]; try discriminate; intros _; simpl.
  - destruct (eval md e en); simpl; try discriminate. intros [= <-] N. apply lookup_upd_ne; auto.
  - destruct (bind (eval md e en) as_int); simpl; try discriminate.
    destruct (bind (eval md i en) as_int); simpl; try discriminate.
    destruct (bind (get a en) as_arr); simpl; try discriminate.
    destruct (zset _ _ _); try discriminate. intros [= <-] N. apply lookup_upd_ne; auto.
Qed.
Lemma frame_stmts md cl x w hs os l : forall ae s0 ae' s1 en en', sexecs w hs os l ae s0 = SOk ae' s1 ->
  exec_list md cl l en = Ok en' -> existsb (fun s => String.eqb x (target s)) l = false ->
  lookup x en' = lookup x en.
Proof.
  induction l as [|s t IH]; intros ae s0 ae' s1 en en'; simpl.
  - intros _ [= <-] _. reflexivity.
  - destruct (sexec s ae s0) as [ae1 s2| |] eqn:E; simpl; try discriminate.
    destruct (hinted w hs os s ae1 s2) as [ae1' s2'| |]; simpl; try discriminate. intros Et.
    destruct (exec md cl s en) as [en1| |] eqn:X; simpl; try discriminate. intros Xt.
    rewrite orb_false_iff. intros [N1 N2]. rewrite (IH _ _ _ _ _ _ Et Xt N2).
    eapply frame_stmt; eauto. apply String.eqb_neq. exact N1.
Qed.
Lemma gets_ok ps os en : Forall2 (fun x v => lookup x en = Some v) ps os -> gets ps en = Ok os.
Proof.
  induction 1 as [|x v ps os H F IH]; simpl; auto. unfold get. rewrite H. simpl. rewrite IH. reflexivity.
Qed.
Lemma lookup_combine {A} ps (l : list A) : NoDup ps -> List.length ps = List.length l ->
  Forall2 (fun x v => lookup x (combine ps l) = Some v) ps l.
Proof.
  revert l. induction ps as [|p ps IH]; intros [|v l] N L; try discriminate; [constructor|].
  inversion N as [|? ? N1 N2]; subst. simpl. constructor.
  - rewrite String.eqb_refl. reflexivity.
  - injection L as L. specialize (IH l N2 L).
    assert (Forall (fun x => In x ps) ps) as Fi by (apply Forall_forall; auto).
    assert (G : forall qs m, Forall2 (fun x v => lookup x (combine ps l) = Some v) qs m -> Forall (fun x => In x ps) qs ->
      Forall2 (fun x v0 => (if String.eqb x p then Some v else lookup x (combine ps l)) = Some v0) qs m).
    { clear -N1. induction 1 as [|q w qs m H F IH]; intros Fi; constructor; inversion Fi; subst; auto.
      destruct (String.eqb_spec q p); [subst; contradiction|auto]. }
    apply G; auto.
Qed.
Lemma out_env ps : forall args (en en' : env) k xo v', NoDup ps ->
  Forall2 (fun x v => lookup x en = Some v) ps args ->
  nth_error ps k = Some xo -> lookup xo en' = Some v' ->
  (forall x, In x ps -> x <> xo -> lookup x en' = lookup x en) ->
  Forall2 (fun x v => lookup x en' = Some v) ps (set_nth k v' args).
Proof.
  induction ps as [|p ps IH]; intros args en en' k xo v' N F K L U.
  - inversion F; subst. destruct k; constructor.
  - inversion F as [|? v ? args' H F']; subst. inversion N as [|? ? N1 N2]; subst.
    destruct k as [|k]; simpl in K |- *.
    + injection K as ->. constructor; auto.
      assert (G : forall qs m, Forall2 (fun x v => lookup x en = Some v) qs m -> (forall x, In x qs -> In x ps) ->
        Forall2 (fun x v => lookup x en' = Some v) qs m).
      { induction 1 as [|q w qs m Hq Fq IHq]; intros I; constructor.
        - rewrite U; auto. { right; apply I; left; auto. } intros ->. apply N1, I. left; auto.
        - apply IHq. intros; apply I; right; auto. }
      apply G; auto.
    + constructor.
      * rewrite U; auto; [left; auto|]. intros ->. apply N1. eapply nth_error_In; eauto.
      * eapply IH; eauto. intros x Hx. apply U. right; auto.
Qed.

Lemma inB_ok r bs vs ws : inB bs vs = true -> Forall2 (holds r) vs ws -> Forall2 inb bs ws.
Proof.
  intros H F. revert bs H. induction F as [|v z vs ws Hv F IH]; intros [|[l h] bs]; simpl; try discriminate.
  - constructor.
  - rewrite !andb_true_iff, !Z.leb_le. intros [[H1 H2] H3]. constructor; auto.
    destruct Hv. unfold inb; simpl. lia.
Qed.

Lemma combine_snd {A B} (l : list A) (m : list B) : List.length l = List.length m -> map snd (combine l m) = m.
Proof. revert m; induction l; intros [|]; simpl; try discriminate; auto. intros [= H]. f_equal; auto. Qed.
Lemma combine_fst {A B} (l : list A) (m : list B) : List.length l = List.length m -> map fst (combine l m) = l.
Proof. revert m; induction l; intros [|]; simpl; try discriminate; auto. intros [= H]. f_equal; auto. Qed.

(* what the symbolic run tells about the concrete one *)
Lemma kinit_ok fn ds args : params_ok fn ds = true -> Forall2 arg_ok ds args ->
  exists r0 rvs, map snd rvs = args /\ map fst rvs = map2 rest_of ds args /\
   forall r, (forall a, (a < Pos.of_nat (1 + total ds))%positive -> r a = r0 a) ->
    Forall2 (fun o rv => obj_rel r (fst rv) o (snd rv)) (init_objs 1 ds) rvs /\
    env_rel r (rests (f_params fn) (map2 rest_of ds args)) (fst (kinit fn ds)) (combine (f_params fn) args).
Proof.
  intros P F. destruct (agrees_exists (List.concat (map2 known ds args))) as [r0 A].
  exists r0, (combine (map2 rest_of ds args) args).
  assert (L : List.length (map2 rest_of ds args) = List.length args).
  { clear -F. induction F; simpl; congruence. }
  assert (LT : List.length (List.concat (map2 known ds args)) = total ds).
  { clear -F. induction F as [|d v ds args H F IH]; simpl; auto. rewrite app_length, known_len, IH; auto. }
  rewrite combine_snd, combine_fst by auto. split; [auto|]. split; [auto|].
  intros r Hr.
  assert (A' : agrees r 1 (List.concat (map2 known ds args))).
  { intros i v Hi. rewrite Hr; [apply A; auto|].
    assert (i < total ds)%nat by (rewrite <- LT; apply nth_error_Some; congruence).
    apply Pos2Nat.inj_lt. rewrite !Nat2Pos.id by lia. lia. }
  destruct (init_objs_ok r ds args F 1 A') as [B _]. split; [exact B|].
  pose proof (init_env_rel r (f_params fn) _ _ B) as E.
  rewrite combine_snd, combine_fst in E by auto. exact E.
Qed.

Lemma holds_map r vs l : Forall2 (holds r) vs l -> l = map (fun v => peval r (ap v)) vs.
Proof. induction 1 as [|v z vs l H F IH]; simpl; auto. destruct H as [-> _]. congruence. Qed.

Theorem kernel_sound fn ks : kcheck fn ks = true ->
  forall args, Forall2 arg_ok (ks_in ks) args ->
  exists l0 ws, nth_error args (ks_out ks) = Some (VArr l0) /\
    (forall md cl, run_func md cl fn args =
       Ok ([], set_nth (ks_out ks) (VArr (ws ++ skipn (List.length ws) l0)) args)) /\
    Forall2 inb (ks_bounds ks) ws /\
    (ks_mod ks | wsum (ks_w ks) ws - xden args (ks_val ks)).
Proof.
  unfold kcheck. rewrite !andb_true_iff. intros [[HP HR] H] args F.
  destruct (nth_error (f_params fn) (ks_out ks)) as [xo|] eqn:Exo; [|discriminate].
  rewrite andb_true_iff in H. destruct H as [HT H].
  destruct (sexecs _ _ _ _ _ _) as [ae s| |] eqn:ES; try discriminate.
  destruct (lookup xo ae) as [[|vs open]|] eqn:Lo; try discriminate.
  destruct (nth_error (ks_in ks) (ks_out ks)) as [[|bs open']|] eqn:Dn; try discriminate.
  destruct (sav _ _ s) as [[p s']|] eqn:Sp; try discriminate.
  rewrite !andb_true_iff, Nat.eqb_eq in H. destruct H as [[[[HS HB] HL] HO] HD].
  apply eqb_prop in HO. subst open'.
  destruct (kinit_ok fn _ _ HP F) as (r0 & rvs & Hs & Hf & K).
  destruct (tbl_build _ _ r0 HS) as (r & R0 & R1).
  destruct (K r R0) as [FO ER]. clear K.
  assert (M' : models r s') by exact R1.
  assert (M : models r s) by (eapply models_ext; [eapply sav_ext; eauto|exact M']).
  unfold params_ok in HP. rewrite andb_true_iff, Nat.eqb_eq in HP. destruct HP as [HP1 HP2].
  apply nodupb_ok in HP2.
  assert (LA : List.length (f_params fn) = List.length args) by (rewrite HP1; eapply Forall2_len; eauto).
  pose proof (lookup_combine (f_params fn) args HP2 LA) as FC.
  (* the output argument *)
  assert (exists l0, nth_error args (ks_out ks) = Some (VArr l0) /\
    Forall2 inb bs (firstn (List.length bs) l0) /\ (open = false -> List.length l0 = List.length bs)) as (l0 & A0 & A1 & A2).
  { revert Dn. generalize (ks_out ks) as k. clear -F. induction F as [|d v ds args Hd F IH]; intros [|k]; simpl; try discriminate.
    - intros [= ->]. destruct Hd as (l & -> & ?). eauto.
    - apply IH. }
  assert (RS : (if open then rests (f_params fn) (map2 rest_of (ks_in ks) args) xo else []) = skipn (List.length bs) l0).
  { destruct open.
    - unfold rests.
      assert (Lr : List.length (f_params fn) = List.length (map2 rest_of (ks_in ks) args)).
      { rewrite LA. clear -F. induction F; simpl; congruence. }
      pose proof (lookup_combine (f_params fn) _ HP2 Lr) as FR.
      assert (N : nth_error (map2 rest_of (ks_in ks) args) (ks_out ks) = Some (skipn (List.length bs) l0)).
      { revert Dn A0. generalize (ks_out ks) as k. clear -F. induction F as [|d v ds args Hd F IH]; intros [|k]; simpl; try discriminate.
        - intros [= ->] [= ->]. reflexivity.
        - apply IH. }
      clear -FR Exo N. revert FR Exo N. generalize (ks_out ks) as k.
      generalize (combine (f_params fn) (map2 rest_of (ks_in ks) args)) as C.
      intros C k FR. revert k. induction FR as [|x y ps l H F IH]; intros [|k]; simpl; try discriminate.
      + intros [= ->] [= ->]. rewrite H. reflexivity.
      + apply IH.
    - rewrite skipn_all2; auto. rewrite (A2 eq_refl). auto. }
  set (l := map (fun v => peval r (ap v)) vs).
  assert (LL : List.length l = List.length bs) by (unfold l; rewrite map_length; exact HL).
  assert (RUN : forall md cl, exists en', exec_list md cl (f_body fn) (combine (f_params fn) args) = Ok en' /\
     lookup xo en' = Some (VArr (l ++ skipn (List.length l) l0)) /\ Forall2 (holds r) vs l).
  { intros md cl.
    pose proof (sexecs_sound md cl r _ _ _ FO (ks_w ks) (ks_hints ks) (f_body fn) _ _ (snd (kinit fn (ks_in ks))) ER) as X.
    rewrite ES in X. destruct (X M) as (en' & EX & ER'). clear X.
    destruct (ER' _ _ Lo) as (v & Lv & l1 & -> & Fl). assert (l1 = l) by exact (holds_map _ _ _ Fl). subst l1.
    exists en'. split; [exact EX|]. split; [|exact Fl]. rewrite Lv, RS, LL. reflexivity. }
  exists l0, l. split; [exact A0|].
  destruct (RUN Debug (fun _ _ => Stuck)) as (_ & _ & _ & Fl).
  split; [|split].
  - intros md cl. destruct (RUN md cl) as (en' & EX & Lv & _).
    unfold run_func. rewrite (proj2 (Nat.eqb_eq _ _) LA). rewrite EX. simpl.
    destruct (f_rets fn); [|discriminate]. simpl.
    rewrite (gets_ok _ (set_nth (ks_out ks) (VArr (l ++ skipn (List.length l) l0)) args)); [reflexivity|].
    eapply out_env; eauto.
    intros x Hx Nx. eapply frame_stmts; eauto.
    rewrite forallb_forall in HT. specialize (HT x Hx). apply orb_true_iff in HT as [HT|HT].
    + apply String.eqb_eq in HT. contradiction.
    + apply negb_true_iff. exact HT.
  - eapply inB_ok; eauto.
  - pose proof (pdivisible_sound r _ _ HD) as [q Hq].
    rewrite psub_eval, (wsum_p_ok _ _ _ _ Fl) in Hq.
    rewrite <- (proj1 (sav_sound r _ _ FO _ _ _ _ Sp M')), Hs in Hq. exists q. rewrite Hq. ring.
Qed.

Theorem panic_sound fn ds : kpanic fn ds = true ->
  forall md cl args, Forall2 arg_ok ds args -> run_func md cl fn args = Panic.
Proof.
  unfold kpanic. rewrite !andb_true_iff. intros [HP H] md cl args F.
  destruct (sexecs _ _ _ _ _ _) as [|s|] eqn:ES; try discriminate.
  destruct (kinit_ok fn _ _ HP F) as (r0 & rvs & Hs & Hf & K).
  destruct (tbl_build _ _ r0 H) as (r & R0 & R1).
  destruct (K r R0) as [FO ER].
  pose proof (sexecs_sound md cl r _ _ _ FO 0 [] (f_body fn) _ _ (snd (kinit fn ds)) ER) as X.
  rewrite ES in X. specialize (X R1).
  unfold params_ok in HP. rewrite andb_true_iff, Nat.eqb_eq in HP. destruct HP as [HP1 HP2].
  assert (LA : List.length (f_params fn) = List.length args) by (rewrite HP1; eapply Forall2_len; eauto).
  unfold run_func. rewrite (proj2 (Nat.eqb_eq _ _) LA), X. reflexivity.
Qed.
