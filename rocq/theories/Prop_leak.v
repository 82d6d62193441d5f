(** C40 for whole programs.  The observer's view of a program is defined in
    LeakSpec.v, of a call in TraceSpec.v. *)
From Coq Require Import ZArith List String Lia.
From Verif Require Import Lang Fields Machine EdwardsSpec CurveSpec TraceSpec LeakSpec ShapeSpec Leak.
Import ListNotations.
Local Open Scope string_scope.
Local Open Scope Z_scope.

(** The call whose events are observed is the only use of the library that an
    instruction makes ... *)
Theorem C40_calls : forall c s f vs, call_of c s = Some (f, vs) ->
  exists k, forall md F, step md F c s = bind (rust_call md (fl_tbl F) f vs) k.
Proof. exact step_calls. Qed.
Print Assumptions C40_calls.
Theorem C40_point_calls : forall c st f vs, pcall_of c st = Some (f, vs) ->
  exists k, forall md C, pstep md C c st = bind (rust_call md (cv_tbl C) f vs) k.
Proof. exact pstep_calls. Qed.
Print Assumptions C40_point_calls.
(** ... the events of every call of a program are seen, in the order of the
    calls and on the values the program has reached ... *)
Theorem C40_every_call : forall md F c p s s', run md F p s = Ok s' ->
  program_trace md F (p ++ [c])%list s = (program_trace md F p s ++ call_trace md (fl_tbl F) (call_of c s'))%list.
Proof. exact program_seen. Qed.
Print Assumptions C40_every_call.
Theorem C40_every_point_call : forall md C c p s s', prun md C p s = Ok s' ->
  point_program_trace md C (p ++ [c])%list s = (point_program_trace md C p s ++ call_trace md (cv_tbl C) (pcall_of c s'))%list.
Proof. exact point_program_seen. Qed.
Print Assumptions C40_every_point_call.
(** ... so in a release build a program of any length, whatever it computes on
    the way, looks the same for all its secrets: the values it starts from, the
    bytes it decodes, the random draws and the small integers. *)
Theorem C40_program : forall F p q s t, In F all_fields -> Forall2 same_text p q ->
  List.length (vars s) = List.length (vars t) -> formed F p (List.length (vars s)) -> formed F q (List.length (vars t)) ->
  Forall (is_i64s F) (vars s) -> Forall (is_i64s F) (vars t) -> program_trace Release F p s = program_trace Release F q t.
Proof. exact program_release. Qed.
Print Assumptions C40_program.
(** With overflow checks on this holds of any two runs that complete (C25 says
    which do). *)
Theorem C40_program_completed : forall F md p, In F all_fields -> forall q s t s' t', Forall2 same_text p q ->
  List.length (vars s) = List.length (vars t) -> formed F p (List.length (vars s)) -> formed F q (List.length (vars t)) ->
  Forall (is_i64s F) (vars s) -> Forall (is_i64s F) (vars t) -> run md F p s = Ok s' -> run md F q t = Ok t' ->
  program_trace md F p s = program_trace md F q t.
Proof. exact program_same. Qed.
Print Assumptions C40_program_completed.
(** Likewise programs on points; the secrets are the points, the coordinates
    given to init() and the scalars. *)
Theorem C40_point_program : forall C p q s t, In C all_curves -> Forall2 same_point_text p q ->
  List.length s = List.length t -> pformed C p (List.length s) -> pformed C q (List.length t) ->
  Forall (each (is_i64s (cv_fld C))) s -> Forall (each (is_i64s (cv_fld C))) t -> point_program_trace Release C p s = point_program_trace Release C q t.
Proof. exact point_program_release. Qed.
Print Assumptions C40_point_program.
Theorem C40_point_program_completed : forall C md p, In C all_curves -> forall q s t s' t', Forall2 same_point_text p q ->
  List.length s = List.length t -> pformed C p (List.length s) -> pformed C q (List.length t) ->
  Forall (each (is_i64s (cv_fld C))) s -> Forall (each (is_i64s (cv_fld C))) t -> prun md C p s = Ok s' -> prun md C q t = Ok t' ->
  point_program_trace md C p s = point_program_trace md C q t.
Proof. exact point_program_same. Qed.
Print Assumptions C40_point_program_completed.
(** two programs with different secrets, and one whose bit number is another *)
Example C40_program_case :
  let p := [IUnpacked (repeat 7%Z 32); ISmall SmallMul 0 5%Z; IOp Mul 0 1; IEq 0 2; IBit 2 9%Z]%nat in
  let q := [IUnpacked (repeat 255%Z 32); ISmall SmallMul 0 (-1)%Z; IOp Mul 0 1; IEq 0 2; IBit 2 9%Z]%nat in
  let r := [IUnpacked (repeat 7%Z 32); ISmall SmallMul 0 5%Z; IOp Mul 0 1; IEq 0 2; IBit 2 200%Z]%nat in
  Forall2 same_text p q /\ formed e255_19 p 0 /\ formed e255_19 q 0 /\ (1000 <= List.length (program_trace Release e255_19 p start))%nat /\
  program_trace Release e255_19 p start <> program_trace Release e255_19 r start.
Proof.
  cbv zeta. split; [repeat (apply Forall2_cons; [cbn; auto|]); apply Forall2_nil|].
  assert (N : forall z n, 0 <= z < 256 -> is_bytes (repeat z n)) by (intros z n H; apply Forall_forall; intros x I; apply repeat_spec in I; subst; exact H).
  split; [cbn [formed]; repeat split; try (apply N; lia); try lia; try (apply Nat.leb_le; reflexivity); try (vm_compute; discriminate); try (vm_compute; reflexivity)|].
  split; [cbn [formed]; repeat split; try (apply N; lia); try lia; try (apply Nat.leb_le; reflexivity); try (vm_compute; discriminate); try (vm_compute; reflexivity)|].
  split; [apply Nat.leb_le; vm_compute; reflexivity|vm_compute; discriminate].
Qed.
