(** The five Montgomery base points have the published orders: they are carried
    to Edwards curves (Mont.v), and there the order is computed as for the five
    Edwards curves (GroupOrder.v). *)
From Coq Require Import ZArith Znumtheory List Bool Lia Uint63 Setoid.
From Verif Require Import Lang Kernel Fields NumTheory Primes Fast Zp EdwardsSpec EdwardsAlg GroupLaw Power Arith Roots Symbols GroupSpec Group GroupOrder MontSpec Mont.
Import ListNotations.
Local Open Scope Z_scope.

(** For each curve: s = sqrt (A + 2), d = (A - 2) / (A + 2), r with
    A^2 - 4 = 2 r^2, i = sqrt (-1), and the base point's image (u, v) *)
Definition carried : list (montgomery_constants * (Z * Z * Z * Z * Z * Z)) := [
  (M221_constants,
    (0x1edece7676038ddcf360b5f63460d424449da7a76824c20043a762c4,
     0x1e0c4ccf43752ecb5c9e2222bb05229de7e84655fecaf11e85cbb3f4,
     0x6be82049946655cbbe83b4ec1c11088d1b6b9b1ad677ab9e2fb9a8a,
     0x8c06d788863cdd6e73800ee6c4e4e461267b23c06b158a371015618,
     0x897382f17ffd984fc1d61458c71f09eb9e565767a03d1658d44cba3,
     0x13333333333333333333333333333333333333333333333333333332));
  (Curve25519_constants,
    (0x6be4f497f9a9c2afc21fa77ad7f4a6ef635a11c7284a9363e9a248ef9c884415,
     0x2dfc9311d490018c7338bf8688861767ff8ff5b2bebe27548a14b235eca6874a,
     0x32709c5c4ea211102d0703fd0867d993fd311fc64103d75f2b4630cc557d2519,
     0x2b8324804fc1df0b2b4d00993dfbd7a72f431806ad2fe478c4ee1b274a0ea0b0,
     0x6a6597b61bb3c380f9e4c2a8f03b12a4a2eb3745bdac20b63381207f0acc5252,
     0x6666666666666666666666666666666666666666666666666666666666666658));
  (M383_constants,
    (0x64ab4d66cd12b6ee13295bae481944e9091221245f9411dce00e9920286a4449b2de5306fe225ee05fd8beca3bd8dcac,
     0x2b45d8d707f71d4a6ab0c277a356080f7c7e4d5e380aeaa492ddb1ff4d45d8d707f71d4a6ab0c277a356080f7c7e4d20,
     0x83306724288f912a5124f009738069c2aac5d33af45e01d7e538f8f32bc51d0f965ddba2a1cbd49e7a3e93a235624a8,
     0x24617df95ff4730f48097cfdb015c9a42247112994425c260e338b12dde4b0a4da30b000cb8732e0d43bd5336eddd6da,
     0x1a688068ed8c3b69d22774da01df4fb947f0e390038f2a31d3f2b62e1db9cc664258e9b414a2f2ef07c9917529657d5b,
     0x9d89d89d89d89d89d89d89d89d89d89d89d89d89d89d89d89d89d89d89d89d89d89d89d89d89d89d89d89d89d89d890));
  (Curve383187_constants,
    (0x1de721ff03b0822b2d6c91dd343c7d223e0e9f24e38843b8a259a3c1fdec077be01b6a299eb01e566c058cb952a64a5e,
     0x741e5194aeb1b4d9556426ebde39db4b3b783905900537f68d21b554715a70cc85e5f0bbda1c96bac367f3d38341b125,
     0x271e703cbab60e70b44195abadc7bd53871edd58812d52f696b556109ec2ff74cfacd7c12d57640fcd101660868f55b,
     0x24617df95ff4730f48097cfdb015c9a42247112994425c260e338b12dde4b0a4da30b000cb8732e0d43bd5336eddd6da,
     0x647a8de896735904c1e3cabdf3432fd79accace2d4e4f7bd98741c27ff65dd8646cbc5da5cdef2cc5429e9e89929fb76,
     0x2aaaaaaaaaaaaaaaaaaaaaaaaaaaaaaaaaaaaaaaaaaaaaaaaaaaaaaaaaaaaaaaaaaaaaaaaaaaaaaaaaaaaaaaaaaaaa6d));
  (M511_constants,
    (0xf93957c44c32e345f2ac0fbb097179efbc18c4e9031873391b3ab487639025cd5597e9e919cab04fc0786eeaacc702e6f8de41706a1b5c022abddd52a6d884b,
     0x89edad0b3160ac9986d203248f2de71cc29b6b232b5ac458330ea10e3454cd4368830e51fbbad3c9cec9d3bafb530b8a55754aaab535a9ccef64e1f53e4fd18,
     0x524e662acb0151acf7fa95402765908b0a3a197de79893188ef7b56e908b7d4294134c0f6fb2974f22a5e9830935e532feb9f2e7918bece8d55fbced5af86bab,
     0xecda5605ac73ca62d360dd35afc67fcb2d9d627c653c0cdcff56cdde9b115862a4216356433c83fdf4744e63847e9b2a6526b3ddabf1019abca2025f19a0806,
     0x874a89e3bac5053d8b2bd8cb6aeceea11873c478eaf3d16419b6fac83066f31080c0bfbf319d04d6bbd00959d1de0c73d094c98ac4dc660a9504bbfbebe7922,
     0x2aaaaaaaaaaaaaaaaaaaaaaaaaaaaaaaaaaaaaaaaaaaaaaaaaaaaaaaaaaaaaaaaaaaaaaaaaaaaaaaaaaaaaaaaaaaaaaaaaaaaaaaaaaaaaaaaaaaaaaaaaaaaa6d))].
Definition carried_ok (w : montgomery_constants * (Z * Z * Z * Z * Z * Z)) : bool :=
  let '(c, (s, d, r, i, u, v)) := w in let F := mc_fld c in let p := modulus F in let A := mc_A c in
  let x := value F (mc_x c) in let y := value F (mc_y c) in let k := Z.to_nat (nbits F / 63 + 1) in
  (p mod 8 =? 5) && ((i * i + 1) mod p =? 0) && ((s * s - (A + 2)) mod p =? 0) && ((d * (s * s) - (A - 2)) mod p =? 0) &&
  ((A * A - 4 - 2 * (r * r)) mod p =? 0) && negb (r mod p =? 0) && negb (s mod p =? 0) && negb (x mod p =? 0) && negb (y mod p =? 0) && negb ((x + 1) mod p =? 0) &&
  ((u * y - s * x) mod p =? 0) && ((v * (x + 1) - (x - 1)) mod p =? 0) && negb (u mod p =? 0) &&
  (p <? wB ^ Z.of_nat k) && fkills k p d u v (value F (mc_order c)).
Lemma carried_checked : forallb carried_ok carried = true. Proof. vm_cast_no_check (eq_refl true). Qed.
Lemma carried_all c : In c montgomery_published -> exists w, In (c, w) carried.
Proof. unfold montgomery_published, carried. cbn [In]. intuition (subst c; eauto 10). Qed.
Lemma mont_pow c : In c montgomery_published -> In (mc_fld c) pow_fields.
Proof. unfold montgomery_published. cbn [In]. intuition (subst c; cbn; auto 10). Qed.


Lemma mod0 p a : 0 < p -> a mod p = 0 -> cong p a 0.
Proof. intros H E. unfold cong. rewrite Z.sub_0_r. apply Z.mod_divide; [lia|exact E]. Qed.
Lemma mod0_not p a : 0 < p -> a mod p <> 0 -> ~ cong p a 0.
Proof. intros H E C. apply E. unfold cong in C. rewrite Z.sub_0_r in C. apply Z.mod_divide; [lia|exact C]. Qed.
Lemma mod0_sub p a b : 0 < p -> (a - b) mod p = 0 -> cong p a b.
Proof. intros H E. unfold cong. apply Z.mod_divide; [lia|exact E]. Qed.

Lemma mont_facts c : In c montgomery_published -> let p := modulus (mc_fld c) in let A := mc_A c in let q := value (mc_fld c) (mc_order c) in
  exists s d E, prime p /\ cong p (s * s) (A + 2) /\ cong p (d * (s * s)) (A - 2) /\ non_square p d /\ ~ cong p s 0 /\
    on_mont p A (mc_point c) /\ img p s (mc_point c) E /\ (forall n R, multiple p d E n R -> (same_point p R neutral <-> (q | Z.of_nat n))).
Proof.
  intros I p A q. destruct (carried_all c I) as ((((((s, d), r), i), u), v) & W). apply (proj1 (forallb_forall _ _) carried_checked) in W.
  pose proof (mont_pow c I) as HP. pose proof (prime_modulus _ (pow_all _ HP) : prime p) as P. pose proof (prime_ge_2 p P) as P2.
  pose proof (montgomery_constants_right c I) as (_ & _ & _ & _ & _ & _ & OC). change (on_montgomery p A (value (mc_fld c) (mc_x c)) (value (mc_fld c) (mc_y c))) in OC.
  unfold carried_ok in W. fold p A q in W. set (x := value (mc_fld c) (mc_x c)) in *. set (y := value (mc_fld c) (mc_y c)) in *. set (k := Z.to_nat _) in W.
  repeat (apply andb_true_iff in W as (W & ?)).
  repeat match goal with H : (_ =? _) = true |- _ => apply Z.eqb_eq in H | H : negb (_ =? _) = true |- _ => apply negb_true_iff, Z.eqb_neq in H | H : (_ <? _) = true |- _ => apply Z.ltb_lt in H end.
  rename W into M8.
  assert (S2 : cong p (s * s) (A + 2)) by (apply mod0_sub; [lia|assumption]).
  assert (DS : cong p (d * (s * s)) (A - 2)) by (apply mod0_sub; [lia|assumption]).
  assert (R2 : cong p (A * A - 4) (2 * (r * r))) by (apply mod0_sub; [lia|assumption]).
  assert (I2 : cong p (i * i) (-1)) by (apply mod0_sub; [lia|]; replace (i * i - -1) with (i * i + 1) by ring; assumption).
  assert (S0 : ~ cong p s 0) by (apply mod0_not; [lia|assumption]).
  assert (R0 : ~ cong p r 0) by (apply mod0_not; [lia|assumption]).
  assert (X0 : ~ cong p x 0) by (apply mod0_not; [lia|assumption]).
  assert (Y0 : ~ cong p y 0) by (apply mod0_not; [lia|assumption]).
  assert (X1 : ~ cong p (x + 1) 0) by (apply mod0_not; [lia|assumption]).
  assert (U0 : ~ cong p u 0) by (apply mod0_not; [lia|assumption]).
  assert (U : cong p (u * y) (s * x)) by (apply mod0_sub; [lia|assumption]).
  assert (V : cong p (v * (x + 1)) (x - 1)) by (apply mod0_sub; [lia|assumption]).
  assert (N : non_square p d).
  { intros t T. apply (eqc p P) in T. destruct (zp_inv p P r R0) as (j & J).
    apply (two_nonsquare (mc_fld c) i HP M8 I2). exists (t * (s * s) * j). apply (eqc p P).
    transitivity (t * t * (s * s) * (s * s) * (j * j)); [apply cong_eq; ring|]. rewrite T, DS, S2.
    transitivity ((A * A - 4) * (j * j)); [apply cong_eq; ring|]. rewrite R2. transitivity (2 * (r * j) * (r * j)); [apply cong_eq; ring|]. rewrite J. reflexivity. }
  assert (IM : img p s (mc_point c) (u, v)).
  { unfold mc_point. cbn [img fst snd]. fold x y. split; [exact V|]. right. split; [|exact U]. repeat split; assumption. }
  assert (ON : on_mont p A (mc_point c)) by exact OC.
  assert (OE : on_curve p d (u, v)) by exact (img_on p P A s d S2 DS (mc_point c) (u, v) ON IM).
  exists s, d, (u, v). repeat (split; [assumption|]).
  destruct (fkills_ok k p d u v q) as (R1 & M1 & E1); try assumption.
  refine (period p P d N (u, v) q R1 OE (montgomery_order_prime c I) M1 E1 _).
  intros (E & _). apply U0. apply (eqc p P). exact E.
Qed.
Lemma mont_order c : In c montgomery_published -> let p := modulus (mc_fld c) in let A := mc_A c in let q := value (mc_fld c) (mc_order c) in
  forall n R, mont_multiple p A (mc_point c) n R -> (R = Infinity <-> (q | Z.of_nat n)).
Proof.
  intros I p A q n R H. destruct (mont_facts c I) as (s & d & E & P & S2 & DS & N & S0 & ON & IM & PER). fold p A q in P, S2, DS, N, S0, ON, IM, PER.
  destruct (mont_multiple_img p P A s d S2 DS N S0 (mc_point c) E ON IM n R H) as (CR & F & IF & HF). rewrite <- (PER n F HF). split.
  - intros ->. destruct IF as (U & V). split; apply (eqc p P); assumption.
  - intros SN. destruct R as [|x y]; [reflexivity|].
    destruct (img_inj p P s d N S0 (Finite x y) Infinity F neutral); auto. split; reflexivity.
Qed.
Lemma mont_multiples c : In c montgomery_published -> let p := modulus (mc_fld c) in let A := mc_A c in let q := value (mc_fld c) (mc_order c) in
  forall n m R S, mont_multiple p A (mc_point c) n R -> mont_multiple p A (mc_point c) m S -> (same_mont p R S <-> (q | Z.of_nat n - Z.of_nat m)).
Proof.
  intros I p A q n m R S H K. destruct (mont_facts c I) as (s & d & E & P & S2 & DS & N & S0 & ON & IM & PER). fold p A q in P, S2, DS, N, S0, ON, IM, PER.
  destruct (mont_multiple_img p P A s d S2 DS N S0 (mc_point c) E ON IM n R H) as (CR & F & IF & HF).
  destruct (mont_multiple_img p P A s d S2 DS N S0 (mc_point c) E ON IM m S K) as (CS & G & IG & HG).
  pose proof (montgomery_order_prime c I : prime q) as PQ. pose proof (prime_ge_2 q PQ).
  rewrite <- (multiples_distinct p d q P N ltac:(lia) E (img_on p P A s d S2 DS _ _ ON IM) PER n m F G HF HG). split.
  - intros SM. exact (img_same p P s R S F G SM IF IG).
  - intros SP. exact (img_inj p P s d N S0 R S F G IF IG SP).
Qed.
Lemma mont_every c : In c montgomery_published -> let p := modulus (mc_fld c) in let A := mc_A c in
  forall n, exists R, mont_multiple p A (mc_point c) n R /\ on_mont p A R.
Proof.
  intros I p A n. destruct (mont_facts c I) as (s & d & E & P & S2 & DS & N & S0 & ON & IM & PER). fold p A in P, S2, DS, N, S0, ON, IM, PER.
  destruct (mont_multiple_ex p P A s d S2 DS N S0 (mc_point c) n ON) as (R & H). exists R. split; [exact H|].
  exact (proj1 (mont_multiple_img p P A s d S2 DS N S0 (mc_point c) E ON IM n R H)).
Qed.
Lemma mont_added c : In c montgomery_published -> let p := modulus (mc_fld c) in let A := mc_A c in
  forall n m R S T U, mont_multiple p A (mc_point c) n R -> mont_multiple p A (mc_point c) m S -> mont_sum p A R S T -> mont_multiple p A (mc_point c) (n + m) U -> same_mont p T U.
Proof.
  intros I p A n m R S T U. destruct (mont_facts c I) as (s & d & E & P & S2 & DS & N & S0 & ON & IM & PER). fold p A in P, S2, DS, N, S0, ON, IM, PER.
  exact (mont_multiple_add p P A s d S2 DS N S0 (mc_point c) n m R S T U ON).
Qed.
Lemma mont_group c : In c montgomery_published -> let p := modulus (mc_fld c) in let A := mc_A c in
  (forall P Q, on_mont p A P -> on_mont p A Q -> exists R, mont_sum p A P Q R /\ on_mont p A R) /\
  (forall P Q R PQ QR L M, on_mont p A P -> on_mont p A Q -> on_mont p A R ->
     mont_sum p A P Q PQ -> mont_sum p A PQ R L -> mont_sum p A Q R QR -> mont_sum p A P QR M -> same_mont p L M).
Proof.
  intros I p A. destruct (mont_facts c I) as (s & d & E & PR & S2 & DS & N & S0 & ON & IM & PER). fold p A in PR, S2, DS, N, S0, ON, IM, PER. split.
  - intros P Q CP CQ. destruct (mont_sum_ex p PR A d N P Q CP CQ) as (R & H). exists R. split; [exact H|]. exact (sum_on p PR A P Q R CP CQ H).
  - intros P Q R PQ QR L M. exact (mont_assoc p PR A s d S2 DS N S0 P Q R PQ QR L M).
Qed.
Lemma mont_well c : In c montgomery_published -> let p := modulus (mc_fld c) in let A := mc_A c in
  forall P P' Q Q' R R', on_mont p A P -> on_mont p A P' -> on_mont p A Q -> on_mont p A Q' -> same_mont p P P' -> same_mont p Q Q' ->
  mont_sum p A P Q R -> mont_sum p A P' Q' R' \/ mont_sum p A Q' P' R' -> same_mont p R R'.
Proof.
  intros I p A P P' Q Q' R R' CP CP' CQ CQ' SP SQ H H'. destruct (mont_facts c I) as (s & d & E & PR & S2 & DS & N & S0 & _). fold p A in PR, S2, DS, N, S0.
  assert (CR := sum_on p PR A _ _ _ CP CQ H).
  assert (CR' : on_mont p A R') by (destruct H' as [H'|H']; [exact (sum_on p PR A _ _ _ CP' CQ' H')|exact (sum_on p PR A _ _ _ CQ' CP' H')]).
  destruct (img_ex p PR A s d S2 DS N S0 P CP) as (EP & IP), (img_ex p PR A s d S2 DS N S0 P' CP') as (EP' & IP'),
    (img_ex p PR A s d S2 DS N S0 Q CQ) as (EQ & IQ), (img_ex p PR A s d S2 DS N S0 Q' CQ') as (EQ' & IQ'),
    (img_ex p PR A s d S2 DS N S0 R CR) as (ER & IR), (img_ex p PR A s d S2 DS N S0 R' CR') as (ER' & IR').
  apply (img_inj p PR s d N S0 R R' ER ER' IR IR'). apply (sum_unique p PR d EP EQ).
  - exact (hom p PR A s d S2 DS N S0 _ _ _ _ _ _ CP CQ H IP IQ IR).
  - apply (sum_ext p PR d EP' EP EQ' EQ ER' ER'); [apply same_sym; exact (img_same p PR s P P' EP EP' SP IP IP')|apply same_sym; exact (img_same p PR s Q Q' EQ EQ' SQ IQ IQ')|apply same_refl|].
    destruct H' as [H'|H'].
    + exact (hom p PR A s d S2 DS N S0 _ _ _ _ _ _ CP' CQ' H' IP' IQ' IR').
    + apply (sum_comm p PR). exact (hom p PR A s d S2 DS N S0 _ _ _ _ _ _ CQ' CP' H' IQ' IP' IR').
Qed.
Lemma same_mont_refl p P : same_mont p P P.
Proof. destruct P; cbn; [exact Logic.I|split; reflexivity]. Qed.
Lemma mont_laws c : In c montgomery_published -> let p := modulus (mc_fld c) in let A := mc_A c in
  (forall P Q R R', on_mont p A P -> on_mont p A Q -> mont_sum p A P Q R -> mont_sum p A P Q R' -> same_mont p R R') /\
  (forall P Q R R', on_mont p A P -> on_mont p A Q -> mont_sum p A P Q R -> mont_sum p A Q P R' -> same_mont p R R') /\
  (forall P P' Q Q' R R', on_mont p A P -> on_mont p A P' -> on_mont p A Q -> on_mont p A Q' -> same_mont p P P' -> same_mont p Q Q' ->
     mont_sum p A P Q R -> mont_sum p A P' Q' R' -> same_mont p R R') /\
  (forall P R, on_mont p A P -> mont_sum p A P Infinity R -> same_mont p P R) /\
  (forall P, on_mont p A P -> exists M, on_mont p A M /\ forall R, mont_sum p A P M R -> R = Infinity).
Proof.
  intros I p A. pose proof (mont_well c I) as W. cbv zeta in W. fold p A in W. repeat split.
  - intros P Q R R' CP CQ H H'. exact (W P P Q Q R R' CP CP CQ CQ (same_mont_refl p P) (same_mont_refl p Q) H (or_introl H')).
  - intros P Q R R' CP CQ H H'. exact (W P P Q Q R R' CP CP CQ CQ (same_mont_refl p P) (same_mont_refl p Q) H (or_intror H')).
  - intros P P' Q Q' R R' CP CP' CQ CQ' SP SQ H H'. exact (W P P' Q Q' R R' CP CP' CQ CQ' SP SQ H (or_introl H')).
  - intros P R CP H. exact (W P P Infinity Infinity P R CP CP Logic.I Logic.I (same_mont_refl p P) Logic.I (sum_infinity_right p A P P (same_mont_refl p P)) (or_introl H)).
  - intros P CP. destruct P as [|x y].
    + exists Infinity. split; [exact Logic.I|]. intros R H.
      pose proof (W Infinity Infinity Infinity Infinity Infinity R Logic.I Logic.I Logic.I Logic.I Logic.I Logic.I (sum_infinity_left p A Infinity Infinity Logic.I) (or_introl H)) as K.
      destruct R; [reflexivity|destruct K].
    + assert (CM : on_mont p A (Finite x (- y))).
      { cbn in CP |- *. unfold on_montgomery in *. replace (- y * - y) with (y * y) by ring. exact CP. }
      exists (Finite x (- y)). split; [exact CM|]. intros R H.
      assert (V : mont_sum p A (Finite x y) (Finite x (- y)) Infinity) by (apply sum_vertical; unfold eqp; [reflexivity|rewrite Z.opp_involutive; reflexivity]).
      pose proof (W _ _ _ _ Infinity R CP CP CM CM (same_mont_refl p _) (same_mont_refl p _) V (or_introl H)) as K.
      destruct R; [reflexivity|destruct K].
Qed.
Lemma montgomery_case : In Curve25519_constants montgomery_published /\
  mont_multiple (2 ^ 255 - 19) 486662 (mc_point Curve25519_constants) 2
    (Finite 0x20d342d51873f1b7d9750c687d1571148f3f5ced1e350b5c5cae469cdd684efb 0x13b57e011700e8ae050a00945d2ba2f377659eb28d8d391ebcd70465c72df563).
Proof.
  split; [cbn; auto 10|]. eapply mont_multiple_S; [eapply mont_multiple_S; [apply mont_multiple_0|apply (sum_infinity_left _ _ (mc_point Curve25519_constants) (mc_point Curve25519_constants)); split; reflexivity]|].
  eapply (sum_tangent _ _ _ _ _ _ _ _ 0x1790f520c6645bdc6192b7da46c9382a5b9d8bf3e856a96e2c7018bc46f38534); unfold eqp; try (vm_compute; reflexivity). vm_compute. discriminate.
Qed.
