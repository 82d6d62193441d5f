(** Generated by tools/primecert.py: primality certificates for the nine moduli
    and the primes they rest on.  Each is evaluated by a checker that
    Primality.v proves correct. *)
From Coq Require Import ZArith Znumtheory List.
From Verif Require Import NumTheory Primality.
Import ListNotations.
Local Open Scope Z_scope.

Lemma prime_13367 : prime 13367.
Proof. apply trial_ok. vm_cast_no_check (eq_refl true). Qed.
Lemma prime_105465631 : prime 105465631.
Proof.
  apply (pock_ok (barrett 105465631 23 39 43726908706) 105465631 2 7890 (Leaf 13367 1)); [apply (barrett_ok _ _ _ _)|vm_cast_no_check (eq_refl true)|].
  cbn [flist app map fst]. apply Forall_cons; [exact prime_13367|]. apply Forall_nil.
Qed.
Lemma prime_9361973132609 : prime 9361973132609.
Proof.
  apply (pock_ok (barrett 9361973132609 40 56 8462763286331392) 9361973132609 3 88768 (Leaf 105465631 1)); [apply (barrett_ok _ _ _ _)|vm_cast_no_check (eq_refl true)|].
  cbn [flist app map fst]. apply Forall_cons; [exact prime_105465631|]. apply Forall_nil.
Qed.
Lemma prime_3 : prime 3.
Proof. apply trial_ok. vm_cast_no_check (eq_refl true). Qed.
Lemma prime_105943 : prime 105943.
Proof. apply trial_ok. vm_cast_no_check (eq_refl true). Qed.
Lemma prime_76031689039 : prime 76031689039.
Proof.
  apply (pock_ok (barrett 76031689039 33 49 63601155512645) 76031689039 7 239222 (Node (Leaf 3 1) (Leaf 105943 1))); [apply (barrett_ok _ _ _ _)|vm_cast_no_check (eq_refl true)|].
  cbn [flist app map fst]. apply Forall_cons; [exact prime_3|]. apply Forall_cons; [exact prime_105943|]. apply Forall_nil.
Qed.
Lemma prime_2585077427327 : prime 2585077427327.
Proof.
  apply (pock_ok (barrett 2585077427327 38 54 1915517154262454) 2585077427327 2 34 (Leaf 76031689039 1)); [apply (barrett_ok _ _ _ _)|vm_cast_no_check (eq_refl true)|].
  cbn [flist app map fst]. apply Forall_cons; [exact prime_76031689039|]. apply Forall_nil.
Qed.
Lemma prime_4815314615204347717321 : prime 4815314615204347717321.
Proof.
  apply (pock_ok (barrett 4815314615204347717321 69 85 4742361591741242296989449) 4815314615204347717321 3 1862735160 (Leaf 2585077427327 1)); [apply (barrett_ok _ _ _ _)|vm_cast_no_check (eq_refl true)|].
  cbn [flist app map fst]. apply Forall_cons; [exact prime_2585077427327|]. apply Forall_nil.
Qed.
Lemma prime_221_3 : prime (2 ^ Z.of_nat 221 - 3).
Proof.
  apply (pock_ok (foldred 221 3) (2 ^ Z.of_nat 221 - 3) 2 74754438491716770111782826229532 (Node (Leaf 9361973132609 1) (Leaf 4815314615204347717321 1))); [apply (foldred_ok 221 3)|vm_cast_no_check (eq_refl true)|].
  cbn [flist app map fst]. apply Forall_cons; [exact prime_9361973132609|]. apply Forall_cons; [exact prime_4815314615204347717321|]. apply Forall_nil.
Qed.
Lemma prime_127727 : prime 127727.
Proof. apply trial_ok. vm_cast_no_check (eq_refl true). Qed.
Lemma prime_20249 : prime 20249.
Proof. apply trial_ok. vm_cast_no_check (eq_refl true). Qed.
Lemma prime_17171153 : prime 17171153.
Proof.
  apply (pock_ok (barrett 17171153 21 37 16785732219) 17171153 2 848 (Leaf 20249 1)); [apply (barrett_ok _ _ _ _)|vm_cast_no_check (eq_refl true)|].
  cbn [flist app map fst]. apply Forall_cons; [exact prime_20249|]. apply Forall_nil.
Qed.
Lemma prime_250381879990652588256601 : prime 250381879990652588256601.
Proof.
  apply (pock_ok (barrett 250381879990652588256601 74 90 93393444438421157595586139) 250381879990652588256601 2 114161778600 (Node (Leaf 127727 1) (Leaf 17171153 1))); [apply (barrett_ok _ _ _ _)|vm_cast_no_check (eq_refl true)|].
  cbn [flist app map fst]. apply Forall_cons; [exact prime_127727|]. apply Forall_cons; [exact prime_17171153|]. apply Forall_nil.
Qed.
Lemma prime_228728139988123081237499256083957678977837 : prime 228728139988123081237499256083957678977837.
Proof.
  apply (pock_ok (barrett 228728139988123081237499256083957678977837 134 150 135893652076328094132892786283126125976616961) 228728139988123081237499256083957678977837 2 913517144278420236 (Leaf 250381879990652588256601 1)); [apply (barrett_ok _ _ _ _)|vm_cast_no_check (eq_refl true)|].
  cbn [flist app map fst]. apply Forall_cons; [exact prime_250381879990652588256601|]. apply Forall_nil.
Qed.
Lemma prime_123513195593586463868249598285337146648031981 : prime 123513195593586463868249598285337146648031981.
Proof.
  apply (pock_ok (barrett 123513195593586463868249598285337146648031981 143 159 65969825055364725756246382532229287348174585856) 123513195593586463868249598285337146648031981 2 540 (Leaf 228728139988123081237499256083957678977837 1)); [apply (barrett_ok _ _ _ _)|vm_cast_no_check (eq_refl true)|].
  cbn [flist app map fst]. apply Forall_cons; [exact prime_228728139988123081237499256083957678977837|]. apply Forall_nil.
Qed.
Lemma prime_222_117 : prime (2 ^ Z.of_nat 222 - 117).
Proof.
  apply (pock_ok (foldred 222 117) (2 ^ Z.of_nat 222 - 117) 2 54568960299312666696306 (Leaf 123513195593586463868249598285337146648031981 1)); [apply (foldred_ok 222 117)|vm_cast_no_check (eq_refl true)|].
  cbn [flist app map fst]. apply Forall_cons; [exact prime_123513195593586463868249598285337146648031981|]. apply Forall_nil.
Qed.
Lemma prime_31 : prime 31.
Proof. apply trial_ok. vm_cast_no_check (eq_refl true). Qed.
Lemma prime_2 : prime 2.
Proof. apply trial_ok. vm_cast_no_check (eq_refl true). Qed.
Lemma prime_1135613 : prime 1135613.
Proof. apply trial_ok. vm_cast_no_check (eq_refl true). Qed.
Lemma prime_2032236244151 : prime 2032236244151.
Proof.
  apply (pock_ok (barrett 2032236244151 37 53 609151639160214) 2032236244151 7 894775 (Node (Leaf 2 1) (Leaf 1135613 1))); [apply (barrett_ok _ _ _ _)|vm_cast_no_check (eq_refl true)|].
  cbn [flist app map fst]. apply Forall_cons; [exact prime_2|]. apply Forall_cons; [exact prime_1135613|]. apply Forall_nil.
Qed.
Lemma prime_297581916939273464475253 : prime 297581916939273464475253.
Proof.
  apply (pock_ok (barrett 297581916939273464475253 74 90 78580131608152607757079309) 297581916939273464475253 2 146430769452 (Leaf 2032236244151 1)); [apply (barrett_ok _ _ _ _)|vm_cast_no_check (eq_refl true)|].
  cbn [flist app map fst]. apply Forall_cons; [exact prime_2032236244151|]. apply Forall_nil.
Qed.
Lemma prime_22645347980446549950250344634517843 : prime 22645347980446549950250344634517843.
Proof.
  apply (pock_ok (barrett 22645347980446549950250344634517843 111 127 19505629437710492825944779181406269400) 22645347980446549950250344634517843 2 76097863114 (Leaf 297581916939273464475253 1)); [apply (barrett_ok _ _ _ _)|vm_cast_no_check (eq_refl true)|].
  cbn [flist app map fst]. apply Forall_cons; [exact prime_297581916939273464475253|]. apply Forall_nil.
Qed.
Lemma prime_30510656070643106182115999270826633842178510774222732476374386585332681 : prime 30510656070643106182115999270826633842178510774222732476374386585332681.
Proof.
  apply (pock_ok (barrett 30510656070643106182115999270826633842178510774222732476374386585332681 231 247 25579166038645852626943349242322833269056144433795734520911407746692153344) 30510656070643106182115999270826633842178510774222732476374386585332681 2 43462114726877393142717314782025960 (Node (Leaf 31 1) (Leaf 22645347980446549950250344634517843 1))); [apply (barrett_ok _ _ _ _)|vm_cast_no_check (eq_refl true)|].
  cbn [flist app map fst]. apply Forall_cons; [exact prime_31|]. apply Forall_cons; [exact prime_22645347980446549950250344634517843|]. apply Forall_nil.
Qed.
Lemma prime_251_9 : prime (2 ^ Z.of_nat 251 - 9).
Proof.
  apply (pock_ok (foldred 251 9) (2 ^ Z.of_nat 251 - 9) 2 118598 (Leaf 30510656070643106182115999270826633842178510774222732476374386585332681 1)); [apply (foldred_ok 251 9)|vm_cast_no_check (eq_refl true)|].
  cbn [flist app map fst]. apply Forall_cons; [exact prime_30510656070643106182115999270826633842178510774222732476374386585332681|]. apply Forall_nil.
Qed.
Lemma prime_75707 : prime 75707.
Proof. apply trial_ok. vm_cast_no_check (eq_refl true). Qed.
Lemma prime_7 : prime 7.
Proof. apply trial_ok. vm_cast_no_check (eq_refl true). Qed.
Lemma prime_991 : prime 991.
Proof. apply trial_ok. vm_cast_no_check (eq_refl true). Qed.
Lemma prime_8574133 : prime 8574133.
Proof.
  apply (pock_ok (barrett 8574133 20 36 8404067681) 8574133 2 2884 (Node (Leaf 3 1) (Leaf 991 1))); [apply (barrett_ok _ _ _ _)|vm_cast_no_check (eq_refl true)|].
  cbn [flist app map fst]. apply Forall_cons; [exact prime_3|]. apply Forall_cons; [exact prime_991|]. apply Forall_nil.
Qed.
Lemma prime_1919519569386763 : prime 1919519569386763.
Proof.
  apply (pock_ok (barrett 1919519569386763 47 63 676249534172974408) 1919519569386763 2 31981902 (Node (Leaf 7 1) (Leaf 8574133 1))); [apply (barrett_ok _ _ _ _)|vm_cast_no_check (eq_refl true)|].
  cbn [flist app map fst]. apply Forall_cons; [exact prime_7|]. apply Forall_cons; [exact prime_8574133|]. apply Forall_nil.
Qed.
Lemma prime_75445702479781427272750846543864801 : prime 75445702479781427272750846543864801.
Proof.
  apply (pock_ok (barrett 75445702479781427272750846543864801 112 128 23418790026534365412250746821118394954) 75445702479781427272750846543864801 2 519165620632800 (Node (Leaf 75707 1) (Leaf 1919519569386763 1))); [apply (barrett_ok _ _ _ _)|vm_cast_no_check (eq_refl true)|].
  cbn [flist app map fst]. apply Forall_cons; [exact prime_75707|]. apply Forall_cons; [exact prime_1919519569386763|]. apply Forall_nil.
Qed.
Lemma prime_74058212732561358302231226437062788676166966415465897661863160754340907 : prime 74058212732561358302231226437062788676166966415465897661863160754340907.
Proof.
  apply (pock_ok (barrett 74058212732561358302231226437062788676166966415465897661863160754340907 232 248 42152631492596705536876128764977629107890537144686016210234965525736194048) 74058212732561358302231226437062788676166966415465897661863160754340907 2 163601571060123448557499976939845351 (Node (Node (Leaf 2 1) (Leaf 3 1)) (Leaf 75445702479781427272750846543864801 1))); [apply (barrett_ok _ _ _ _)|vm_cast_no_check (eq_refl true)|].
  cbn [flist app map fst]. apply Forall_cons; [exact prime_2|]. apply Forall_cons; [exact prime_3|]. apply Forall_cons; [exact prime_75445702479781427272750846543864801|]. apply Forall_nil.
Qed.
Lemma prime_255_19 : prime (2 ^ Z.of_nat 255 - 19).
Proof.
  apply (pock_ok (foldred 255 19) (2 ^ Z.of_nat 255 - 19) 2 781764 (Leaf 74058212732561358302231226437062788676166966415465897661863160754340907 1)); [apply (foldred_ok 255 19)|vm_cast_no_check (eq_refl true)|].
  cbn [flist app map fst]. apply Forall_cons; [exact prime_74058212732561358302231226437062788676166966415465897661863160754340907|]. apply Forall_nil.
Qed.
Lemma prime_3659 : prime 3659.
Proof. apply trial_ok. vm_cast_no_check (eq_refl true). Qed.
Lemma prime_1187 : prime 1187.
Proof. apply trial_ok. vm_cast_no_check (eq_refl true). Qed.
Lemma prime_33203 : prime 33203.
Proof. apply trial_ok. vm_cast_no_check (eq_refl true). Qed.
Lemma prime_1992181 : prime 1992181.
Proof.
  apply (pock_ok (barrett 1992181 17 33 565159444) 1992181 2 60 (Leaf 33203 1)); [apply (barrett_ok _ _ _ _)|vm_cast_no_check (eq_refl true)|].
  cbn [flist app map fst]. apply Forall_cons; [exact prime_33203|]. apply Forall_nil.
Qed.
Lemma prime_1850138763445216901 : prime 1850138763445216901.
Proof.
  apply (pock_ok (barrett 1850138763445216901 57 73 735690476074962394591) 1850138763445216901 2 782392700 (Node (Leaf 1187 1) (Leaf 1992181 1))); [apply (barrett_ok _ _ _ _)|vm_cast_no_check (eq_refl true)|].
  cbn [flist app map fst]. apply Forall_cons; [exact prime_1187|]. apply Forall_cons; [exact prime_1992181|]. apply Forall_nil.
Qed.
Lemma prime_21369102717792255206551 : prime 21369102717792255206551.
Proof.
  apply (pock_ok (barrett 21369102717792255206551 71 87 17098303759310789660163562) 21369102717792255206551 2 11550 (Leaf 1850138763445216901 1)); [apply (barrett_ok _ _ _ _)|vm_cast_no_check (eq_refl true)|].
  cbn [flist app map fst]. apply Forall_cons; [exact prime_1850138763445216901|]. apply Forall_nil.
Qed.
Lemma prime_14133936265457239151185988243933396434546137803 : prime 14133936265457239151185988243933396434546137803.
Proof.
  apply (pock_ok (barrett 14133936265457239151185988243933396434546137803 150 166 9445294448604768894739818274091043197399725086101) 14133936265457239151185988243933396434546137803 2 180765036195745477778 (Node (Leaf 3659 1) (Leaf 21369102717792255206551 1))); [apply (barrett_ok _ _ _ _)|vm_cast_no_check (eq_refl true)|].
  cbn [flist app map fst]. apply Forall_cons; [exact prime_3659|]. apply Forall_cons; [exact prime_21369102717792255206551|]. apply Forall_nil.
Qed.
Lemma prime_9979652910506516194281768539460026990412783060843959605032877 : prime 9979652910506516194281768539460026990412783060843959605032877.
Proof.
  apply (pock_ok (barrett 9979652910506516194281768539460026990412783060843959605032877 199 215 4239384113052143576592667004527649141301576634296855057924096006) 9979652910506516194281768539460026990412783060843959605032877 2 706077395785092 (Leaf 14133936265457239151185988243933396434546137803 1)); [apply (barrett_ok _ _ _ _)|vm_cast_no_check (eq_refl true)|].
  cbn [flist app map fst]. apply Forall_cons; [exact prime_14133936265457239151185988243933396434546137803|]. apply Forall_nil.
Qed.
Lemma prime_698575703735456133599723797762201889328894814259077172352301391 : prime 698575703735456133599723797762201889328894814259077172352301391.
Proof.
  apply (pock_ok (barrett 698575703735456133599723797762201889328894814259077172352301391 205 221 248064533243736858424622343579217869753875112772570261675101388800) 698575703735456133599723797762201889328894814259077172352301391 2 70 (Leaf 9979652910506516194281768539460026990412783060843959605032877 1)); [apply (barrett_ok _ _ _ _)|vm_cast_no_check (eq_refl true)|].
  cbn [flist app map fst]. apply Forall_cons; [exact prime_9979652910506516194281768539460026990412783060843959605032877|]. apply Forall_nil.
Qed.
Lemma prime_73772877462174271275190544236719752617642791980199852706432606976654958697962983688247 : prime 73772877462174271275190544236719752617642791980199852706432606976654958697962983688247.
Proof.
  apply (pock_ok (barrett 73772877462174271275190544236719752617642791980199852706432606976654958697962983688247 282 298 53641481255746065528552038428771402294839048518939738459388444097838143242366084133683200) 73772877462174271275190544236719752617642791980199852706432606976654958697962983688247 2 105604699773686012508906 (Leaf 698575703735456133599723797762201889328894814259077172352301391 1)); [apply (barrett_ok _ _ _ _)|vm_cast_no_check (eq_refl true)|].
  cbn [flist app map fst]. apply Forall_cons; [exact prime_698575703735456133599723797762201889328894814259077172352301391|]. apply Forall_nil.
Qed.
Lemma prime_382_105 : prime (2 ^ Z.of_nat 382 - 105).
Proof. apply (plus_ok (-1) (foldred 382 105) (2 ^ Z.of_nat 382 - 105) (2, 1) 73772877462174271275190544236719752617642791980199852706432606976654958697962983688247 133524702952643930623652757800); [apply foldred_ok|vm_cast_no_check (eq_refl true)|exact prime_73772877462174271275190544236719752617642791980199852706432606976654958697962983688247]. Qed.
Lemma prime_15661 : prime 15661.
Proof. apply trial_ok. vm_cast_no_check (eq_refl true). Qed.
Lemma prime_923685781 : prime 923685781.
Proof.
  apply (pock_ok (barrett 923685781 26 42 319532801360) 923685781 3 19660 (Node (Leaf 3 1) (Leaf 15661 1))); [apply (barrett_ok _ _ _ _)|vm_cast_no_check (eq_refl true)|].
  cbn [flist app map fst]. apply Forall_cons; [exact prime_3|]. apply Forall_cons; [exact prime_15661|]. apply Forall_nil.
Qed.
Lemma prime_156765911253115553 : prime 156765911253115553.
Proof.
  apply (pock_ok (barrett 156765911253115553 54 70 135665003715123573825) 156765911253115553 2 169717792 (Leaf 923685781 1)); [apply (barrett_ok _ _ _ _)|vm_cast_no_check (eq_refl true)|].
  cbn [flist app map fst]. apply Forall_cons; [exact prime_923685781|]. apply Forall_nil.
Qed.
Lemma prime_21561596637519154364530566979 : prime 21561596637519154364530566979.
Proof.
  apply (pock_ok (barrett 21561596637519154364530566979 91 107 18631946317263569382261416109053) 21561596637519154364530566979 2 137540084226 (Leaf 156765911253115553 1)); [apply (barrett_ok _ _ _ _)|vm_cast_no_check (eq_refl true)|].
  cbn [flist app map fst]. apply Forall_cons; [exact prime_156765911253115553|]. apply Forall_nil.
Qed.
Lemma prime_140731847223860698993672433903061203299016858671554230293 : prime 140731847223860698993672433903061203299016858671554230293.
Proof.
  apply (pock_ok (barrett 140731847223860698993672433903061203299016858671554230293 183 199 69994828771269721972674073212380628165359177907451425631560) 140731847223860698993672433903061203299016858671554230293 2 6526967811788779413990470748 (Leaf 21561596637519154364530566979 1)); [apply (barrett_ok _ _ _ _)|vm_cast_no_check (eq_refl true)|].
  cbn [flist app map fst]. apply Forall_cons; [exact prime_21561596637519154364530566979|]. apply Forall_nil.
Qed.
Lemma prime_34275585315876169535825731013955432020686980960977076060073381689104960386232837 : prime 34275585315876169535825731013955432020686980960977076060073381689104960386232837.
Proof.
  apply (pock_ok (barrett 34275585315876169535825731013955432020686980960977076060073381689104960386232837 261 277 26251419213310043594662248113537599831265728657840438359349377414689626934822830080) 34275585315876169535825731013955432020686980960977076060073381689104960386232837 2 243552443828541163243252 (Leaf 140731847223860698993672433903061203299016858671554230293 1)); [apply (barrett_ok _ _ _ _)|vm_cast_no_check (eq_refl true)|].
  cbn [flist app map fst]. apply Forall_cons; [exact prime_140731847223860698993672433903061203299016858671554230293|]. apply Forall_nil.
Qed.
Lemma prime_383_187 : prime (2 ^ Z.of_nat 383 - 187).
Proof.
  apply (pock_ok (foldred 383 187) (2 ^ Z.of_nat 383 - 187) 2 574782397343099399084867699577459060 (Leaf 34275585315876169535825731013955432020686980960977076060073381689104960386232837 1)); [apply (foldred_ok 383 187)|vm_cast_no_check (eq_refl true)|].
  cbn [flist app map fst]. apply Forall_cons; [exact prime_34275585315876169535825731013955432020686980960977076060073381689104960386232837|]. apply Forall_nil.
Qed.
Lemma prime_17 : prime 17.
Proof. apply trial_ok. vm_cast_no_check (eq_refl true). Qed.
Lemma prime_720869 : prime 720869.
Proof. apply trial_ok. vm_cast_no_check (eq_refl true). Qed.
Lemma prime_19505309445451 : prime 19505309445451.
Proof.
  apply (pock_ok (barrett 19505309445451 41 57 16247506913096795) 19505309445451 2 1591650 (Node (Leaf 17 1) (Leaf 720869 1))); [apply (barrett_ok _ _ _ _)|vm_cast_no_check (eq_refl true)|].
  cbn [flist app map fst]. apply Forall_cons; [exact prime_17|]. apply Forall_cons; [exact prime_720869|]. apply Forall_nil.
Qed.
Lemma prime_214824846426985860661 : prime 214824846426985860661.
Proof.
  apply (pock_ok (barrett 214824846426985860661 64 80 103808966092337673130557) 214824846426985860661 2 11013660 (Leaf 19505309445451 1)); [apply (barrett_ok _ _ _ _)|vm_cast_no_check (eq_refl true)|].
  cbn [flist app map fst]. apply Forall_cons; [exact prime_19505309445451|]. apply Forall_nil.
Qed.
Lemma prime_6015095699955604098509 : prime 6015095699955604098509.
Proof.
  apply (pock_ok (barrett 6015095699955604098509 69 85 3796442188519777760202614) 6015095699955604098509 2 28 (Leaf 214824846426985860661 1)); [apply (barrett_ok _ _ _ _)|vm_cast_no_check (eq_refl true)|].
  cbn [flist app map fst]. apply Forall_cons; [exact prime_214824846426985860661|]. apply Forall_nil.
Qed.
Lemma prime_2249645791783395932842367 : prime 2249645791783395932842367.
Proof.
  apply (pock_ok (barrett 2249645791783395932842367 77 93 665250361676021805595289882) 2249645791783395932842367 2 374 (Leaf 6015095699955604098509 1)); [apply (barrett_ok _ _ _ _)|vm_cast_no_check (eq_refl true)|].
  cbn [flist app map fst]. apply Forall_cons; [exact prime_6015095699955604098509|]. apply Forall_nil.
Qed.
Lemma prime_26711 : prime 26711.
Proof. apply trial_ok. vm_cast_no_check (eq_refl true). Qed.
Lemma prime_13943143 : prime 13943143.
Proof.
  apply (pock_ok (barrett 13943143 20 36 5167959192) 13943143 2 522 (Leaf 26711 1)); [apply (barrett_ok _ _ _ _)|vm_cast_no_check (eq_refl true)|].
  cbn [flist app map fst]. apply Forall_cons; [exact prime_26711|]. apply Forall_nil.
Qed.
Lemma prime_491 : prime 491.
Proof. apply trial_ok. vm_cast_no_check (eq_refl true). Qed.
Lemma prime_1283 : prime 1283.
Proof. apply trial_ok. vm_cast_no_check (eq_refl true). Qed.
Lemma prime_457345879 : prime 457345879.
Proof.
  apply (pock_ok (barrett 457345879 25 41 161337359060) 457345879 2 726 (Node (Leaf 491 1) (Leaf 1283 1))); [apply (barrett_ok _ _ _ _)|vm_cast_no_check (eq_refl true)|].
  cbn [flist app map fst]. apply Forall_cons; [exact prime_491|]. apply Forall_cons; [exact prime_1283|]. apply Forall_nil.
Qed.
Lemma prime_3041458943669203 : prime 3041458943669203.
Proof.
  apply (pock_ok (barrett 3041458943669203 48 64 1707173088541140394) 3041458943669203 2 6650238 (Leaf 457345879 1)); [apply (barrett_ok _ _ _ _)|vm_cast_no_check (eq_refl true)|].
  cbn [flist app map fst]. apply Forall_cons; [exact prime_457345879|]. apply Forall_nil.
Qed.
Lemma prime_12165835774676813 : prime 12165835774676813.
Proof.
  apply (pock_ok (barrett 12165835774676813 50 66 6828692354164561016) 12165835774676813 2 4 (Leaf 3041458943669203 1)); [apply (barrett_ok _ _ _ _)|vm_cast_no_check (eq_refl true)|].
  cbn [flist app map fst]. apply Forall_cons; [exact prime_3041458943669203|]. apply Forall_nil.
Qed.
Lemma prime_582976264895657809930367649386427562549872079 : prime 582976264895657809930367649386427562549872079.
Proof.
  apply (pock_ok (barrett 582976264895657809930367649386427562549872079 145 161 223628834200893293390633033125752451470351725692) 582976264895657809930367649386427562549872079 2 3436752381116302072842 (Node (Leaf 13943143 1) (Leaf 12165835774676813 1))); [apply (barrett_ok _ _ _ _)|vm_cast_no_check (eq_refl true)|].
  cbn [flist app map fst]. apply Forall_cons; [exact prime_13943143|]. apply Forall_cons; [exact prime_12165835774676813|]. apply Forall_nil.
Qed.
Lemma prime_414_17 : prime (2 ^ Z.of_nat 414 - 17).
Proof.
  apply (pock_ok (foldred 414 17) (2 ^ Z.of_nat 414 - 17) 2 32259169908549528494431054263684578422443871989939075662 (Node (Leaf 2249645791783395932842367 1) (Leaf 582976264895657809930367649386427562549872079 1))); [apply (foldred_ok 414 17)|vm_cast_no_check (eq_refl true)|].
  cbn [flist app map fst]. apply Forall_cons; [exact prime_2249645791783395932842367|]. apply Forall_cons; [exact prime_582976264895657809930367649386427562549872079|]. apply Forall_nil.
Qed.
Lemma prime_71 : prime 71.
Proof. apply trial_ok. vm_cast_no_check (eq_refl true). Qed.
Lemma prime_431 : prime 431.
Proof. apply trial_ok. vm_cast_no_check (eq_refl true). Qed.
Lemma prime_5791 : prime 5791.
Proof. apply trial_ok. vm_cast_no_check (eq_refl true). Qed.
Lemma prime_479216833 : prime 479216833.
Proof.
  apply (pock_ok (barrett 479216833 25 41 153974091087) 479216833 2 192 (Node (Leaf 431 1) (Leaf 5791 1))); [apply (barrett_ok _ _ _ _)|vm_cast_no_check (eq_refl true)|].
  cbn [flist app map fst]. apply Forall_cons; [exact prime_431|]. apply Forall_cons; [exact prime_5791|]. apply Forall_nil.
Qed.
Lemma prime_330659614771 : prime 330659614771.
Proof.
  apply (pock_ok (barrett 330659614771 35 51 233990632659873) 330659614771 2 690 (Leaf 479216833 1)); [apply (barrett_ok _ _ _ _)|vm_cast_no_check (eq_refl true)|].
  cbn [flist app map fst]. apply Forall_cons; [exact prime_479216833|]. apply Forall_nil.
Qed.
Lemma prime_2810390965640035542416767 : prime 2810390965640035542416767.
Proof.
  apply (pock_ok (barrett 2810390965640035542416767 78 94 2130063318483541353661667841) 2810390965640035542416767 2 119709119526 (Node (Leaf 71 1) (Leaf 330659614771 1))); [apply (barrett_ok _ _ _ _)|vm_cast_no_check (eq_refl true)|].
  cbn [flist app map fst]. apply Forall_cons; [exact prime_71|]. apply Forall_cons; [exact prime_330659614771|]. apply Forall_nil.
Qed.
Lemma prime_146621177686829237856559365192161554600556965873 : prime 146621177686829237856559365192161554600556965873.
Proof.
  apply (pock_ok (barrett 146621177686829237856559365192161554600556965873 153 169 58272265156216450671110093140729919196120272319734) 146621177686829237856559365192161554600556965873 2 52171096292091119052816 (Leaf 2810390965640035542416767 1)); [apply (barrett_ok _ _ _ _)|vm_cast_no_check (eq_refl true)|].
  cbn [flist app map fst]. apply Forall_cons; [exact prime_2810390965640035542416767|]. apply Forall_nil.
Qed.
Lemma prime_1046598874349470040812238544166825597307092300404591085307326405812564486341 : prime 1046598874349470040812238544166825597307092300404591085307326405812564486341.
Proof.
  apply (pock_ok (barrett 1046598874349470040812238544166825597307092300404591085307326405812564486341 246 262 800677333178173836273557688970316475564322861612434525308419827090695725536375) 1046598874349470040812238544166825597307092300404591085307326405812564486341 2 7138115317726604645970360580 (Leaf 146621177686829237856559365192161554600556965873 1)); [apply (barrett_ok _ _ _ _)|vm_cast_no_check (eq_refl true)|].
  cbn [flist app map fst]. apply Forall_cons; [exact prime_146621177686829237856559365192161554600556965873|]. apply Forall_nil.
Qed.
Lemma prime_471155737497642486266649722911997034941785580633861408520357030668404527002692877857903580176417856629449583072727858932500851 : prime 471155737497642486266649722911997034941785580633861408520357030668404527002692877857903580176417856629449583072727858932500851.
Proof.
  apply (pock_ok (barrett 471155737497642486266649722911997034941785580633861408520357030668404527002692877857903580176417856629449583072727858932500851 414 430 248972772937229482055769633286377136835526828773462449875832201089242181841035122968202485227627148243059067146250237378685829120) 471155737497642486266649722911997034941785580633861408520357030668404527002692877857903580176417856629449583072727858932500851 2 450177951691852077337633582885488236804542202971850 (Leaf 1046598874349470040812238544166825597307092300404591085307326405812564486341 1)); [apply (barrett_ok _ _ _ _)|vm_cast_no_check (eq_refl true)|].
  cbn [flist app map fst]. apply Forall_cons; [exact prime_1046598874349470040812238544166825597307092300404591085307326405812564486341|]. apply Forall_nil.
Qed.
Lemma prime_511_187 : prime (2 ^ Z.of_nat 511 - 187).
Proof.
  apply (pock_ok (foldred 511 187) (2 ^ Z.of_nat 511 - 187) 2 14228637011991905875813810860 (Leaf 471155737497642486266649722911997034941785580633861408520357030668404527002692877857903580176417856629449583072727858932500851 1)); [apply (foldred_ok 511 187)|vm_cast_no_check (eq_refl true)|].
  cbn [flist app map fst]. apply Forall_cons; [exact prime_471155737497642486266649722911997034941785580633861408520357030668404527002692877857903580176417856629449583072727858932500851|]. apply Forall_nil.
Qed.
Lemma prime_521_1 : prime (2 ^ Z.of_nat 521 - 1).
Proof. apply (ll_ok 521 2 1352991471484932553120430861625628626501148470238064320141651605715112580856244046791115838201919442236187723639505287050784484963256584245667191556872779379). vm_cast_no_check (eq_refl true). Qed.
