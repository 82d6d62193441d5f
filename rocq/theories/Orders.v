(** Generated by tools/ordercert.py: primality certificates for the ten group
    orders the library publishes and the primes they rest on.  Each is
    evaluated by a checker that Primality.v and Fast.v prove correct. *)
From Coq Require Import ZArith Znumtheory List.
From Verif Require Import NumTheory Primality Fast.
Import ListNotations.
Local Open Scope Z_scope.

Lemma order_843131 : prime 843131.
Proof. apply trial_ok. vm_cast_no_check (eq_refl true). Qed.
Lemma order_16862621 : prime 16862621.
Proof.
  apply (fpock_ok 1 16862621 2 20 (Leaf 843131 1)); [vm_cast_no_check (eq_refl true)|].
  cbn [flist app map fst]. apply Forall_cons; [exact order_843131|]. apply Forall_nil.
Qed.
Lemma order_33725243 : prime 33725243.
Proof.
  apply (fpock_ok 1 33725243 2 2 (Leaf 16862621 1)); [vm_cast_no_check (eq_refl true)|].
  cbn [flist app map fst]. apply Forall_cons; [exact order_16862621|]. apply Forall_nil.
Qed.
Lemma order_1294037573909 : prime 1294037573909.
Proof.
  apply (fplus_ok 1 (2) 1294037573909 (1, 1) 33725243 38370); [vm_cast_no_check (eq_refl true)|exact order_33725243].
Qed.
Lemma order_29671 : prime 29671.
Proof. apply trial_ok. vm_cast_no_check (eq_refl true). Qed.
Lemma order_9435379 : prime 9435379.
Proof.
  apply (fpock_ok 1 9435379 2 318 (Leaf 29671 1)); [vm_cast_no_check (eq_refl true)|].
  cbn [flist app map fst]. apply Forall_cons; [exact order_29671|]. apply Forall_nil.
Qed.
Lemma order_3793022357 : prime 3793022357.
Proof.
  apply (fplus_ok 1 (2) 3793022357 (1, 1) 9435379 402); [vm_cast_no_check (eq_refl true)|exact order_9435379].
Qed.
Lemma order_3026831840887 : prime 3026831840887.
Proof.
  apply (fpock_ok 1 3026831840887 2 798 (Leaf 3793022357 1)); [vm_cast_no_check (eq_refl true)|].
  cbn [flist app map fst]. apply Forall_cons; [exact order_3793022357|]. apply Forall_nil.
Qed.
Lemma order_8589840027589535527 : prime 8589840027589535527.
Proof.
  apply (fpock_ok 1 8589840027589535527 2 2837898 (Leaf 3026831840887 1)); [vm_cast_no_check (eq_refl true)|].
  cbn [flist app map fst]. apply Forall_cons; [exact order_3026831840887|]. apply Forall_nil.
Qed.
Lemma order_979241763145207050077 : prime 979241763145207050077.
Proof.
  apply (fplus_ok 2 (2) 979241763145207050077 (1, 1) 8589840027589535527 114); [vm_cast_no_check (eq_refl true)|exact order_8589840027589535527].
Qed.
Lemma order_2318569232226713703170973455453 : prime 2318569232226713703170973455453.
Proof.
  apply (fplus_ok 2 (2) 2318569232226713703170973455453 (1, 1) 979241763145207050077 2367718902); [vm_cast_no_check (eq_refl true)|exact order_979241763145207050077].
Qed.
Lemma order_E222 : prime (2 ^ 220 - 181532584069648727485883454223169).
Proof.
  apply (fplus2_ok 4 (-1) (2 ^ 220 - 181532584069648727485883454223169) (2, 1) (2, 1) 1294037573909 2318569232226713703170973455453 1302123447317618785675686842486703742526743274712664512 726739854595013923435656997825868736 1124181530733584393153975924517178134120262); [vm_cast_no_check (eq_refl true)|exact order_1294037573909|exact order_2318569232226713703170973455453].
Qed.
Lemma order_5171 : prime 5171.
Proof. apply trial_ok. vm_cast_no_check (eq_refl true). Qed.
Lemma order_6153491 : prime 6153491.
Proof.
  apply (fpock_ok 1 6153491 2 1190 (Leaf 5171 1)); [vm_cast_no_check (eq_refl true)|].
  cbn [flist app map fst]. apply Forall_cons; [exact order_5171|]. apply Forall_nil.
Qed.
Lemma order_196911713 : prime 196911713.
Proof.
  apply (fpock_ok 1 196911713 2 32 (Leaf 6153491 1)); [vm_cast_no_check (eq_refl true)|].
  cbn [flist app map fst]. apply Forall_cons; [exact order_6153491|]. apply Forall_nil.
Qed.
Lemma order_176039071423 : prime 176039071423.
Proof.
  apply (fpock_ok 1 176039071423 2 894 (Leaf 196911713 1)); [vm_cast_no_check (eq_refl true)|].
  cbn [flist app map fst]. apply Forall_cons; [exact order_196911713|]. apply Forall_nil.
Qed.
Lemma order_43305611570059 : prime 43305611570059.
Proof.
  apply (fpock_ok 1 43305611570059 2 246 (Leaf 176039071423 1)); [vm_cast_no_check (eq_refl true)|].
  cbn [flist app map fst]. apply Forall_cons; [exact order_176039071423|]. apply Forall_nil.
Qed.
Lemma order_152435752726607681 : prime 152435752726607681.
Proof.
  apply (fpock_ok 1 152435752726607681 2 3520 (Leaf 43305611570059 1)); [vm_cast_no_check (eq_refl true)|].
  cbn [flist app map fst]. apply Forall_cons; [exact order_43305611570059|]. apply Forall_nil.
Qed.
Lemma order_5 : prime 5.
Proof. apply trial_ok. vm_cast_no_check (eq_refl true). Qed.
Lemma order_7 : prime 7.
Proof. apply trial_ok. vm_cast_no_check (eq_refl true). Qed.
Lemma order_17 : prime 17.
Proof. apply trial_ok. vm_cast_no_check (eq_refl true). Qed.
Lemma order_19 : prime 19.
Proof. apply trial_ok. vm_cast_no_check (eq_refl true). Qed.
Lemma order_521 : prime 521.
Proof. apply trial_ok. vm_cast_no_check (eq_refl true). Qed.
Lemma order_5662229 : prime 5662229.
Proof.
  apply (fpock_ok 1 5662229 2 572 (Node (Leaf 19 1) (Leaf 521 1))); [vm_cast_no_check (eq_refl true)|].
  cbn [flist app map fst]. apply Forall_cons; [exact order_19|]. apply Forall_cons; [exact order_521|]. apply Forall_nil.
Qed.
Lemma order_400457 : prime 400457.
Proof. apply trial_ok. vm_cast_no_check (eq_refl true). Qed.
Lemma order_3203657 : prime 3203657.
Proof.
  apply (fpock_ok 1 3203657 2 8 (Leaf 400457 1)); [vm_cast_no_check (eq_refl true)|].
  cbn [flist app map fst]. apply Forall_cons; [exact order_400457|]. apply Forall_nil.
Qed.
Lemma order_83295083 : prime 83295083.
Proof.
  apply (fpock_ok 1 83295083 2 26 (Leaf 3203657 1)); [vm_cast_no_check (eq_refl true)|].
  cbn [flist app map fst]. apply Forall_cons; [exact order_3203657|]. apply Forall_nil.
Qed.
Lemma order_2665442657 : prime 2665442657.
Proof.
  apply (fpock_ok 1 2665442657 2 32 (Leaf 83295083 1)); [vm_cast_no_check (eq_refl true)|].
  cbn [flist app map fst]. apply Forall_cons; [exact order_83295083|]. apply Forall_nil.
Qed.
Lemma order_53308853141 : prime 53308853141.
Proof.
  apply (fpock_ok 1 53308853141 2 20 (Leaf 2665442657 1)); [vm_cast_no_check (eq_refl true)|].
  cbn [flist app map fst]. apply Forall_cons; [exact order_2665442657|]. apply Forall_nil.
Qed.
Lemma order_Curve1174 : prime (2 ^ 249 - 11332719920821432534773113288178349711).
Proof.
  apply (fpock_ok 4 (2 ^ 249 - 11332719920821432534773113288178349711) 3 6608582887051053416443360095652176144 (Node (Leaf 152435752726607681 1) (Node (Node (Node (Leaf 5 2) (Node (Leaf 7 1) (Leaf 17 1))) (Leaf 5662229 1)) (Leaf 53308853141 1)))); [vm_cast_no_check (eq_refl true)|].
  cbn [flist app map fst]. apply Forall_cons; [exact order_152435752726607681|]. apply Forall_cons; [exact order_5|]. apply Forall_cons; [exact order_7|]. apply Forall_cons; [exact order_17|]. apply Forall_cons; [exact order_5662229|]. apply Forall_cons; [exact order_53308853141|]. apply Forall_nil.
Qed.
Lemma order_791891 : prime 791891.
Proof. apply trial_ok. vm_cast_no_check (eq_refl true). Qed.
Lemma order_23756729 : prime 23756729.
Proof.
  apply (fplus_ok 1 (3) 23756729 (1, 1) 791891 30); [vm_cast_no_check (eq_refl true)|exact order_791891].
Qed.
Lemma order_96043 : prime 96043.
Proof. apply trial_ok. vm_cast_no_check (eq_refl true). Qed.
Lemma order_296196613 : prime 296196613.
Proof.
  apply (fpock_ok 1 296196613 2 3084 (Leaf 96043 1)); [vm_cast_no_check (eq_refl true)|].
  cbn [flist app map fst]. apply Forall_cons; [exact order_96043|]. apply Forall_nil.
Qed.
Lemma order_5477860160821 : prime 5477860160821.
Proof.
  apply (fplus_ok 1 (2) 5477860160821 (1, 1) 296196613 18494); [vm_cast_no_check (eq_refl true)|exact order_296196613].
Qed.
Lemma order_274967663196021973118692602986121187 : prime 274967663196021973118692602986121187.
Proof.
  apply (fplus2_ok 2 (-1) 274967663196021973118692602986121187 (2, 1) (2, 1) 23756729 5477860160821 11574306513157681477054042372 50196181560576914774228 30358437957774002524); [vm_cast_no_check (eq_refl true)|exact order_23756729|exact order_5477860160821].
Qed.
Lemma order_27457161967136632372853627203548351065399521153702532326641964625665699 : prime 27457161967136632372853627203548351065399521153702532326641964625665699.
Proof.
  apply (fpock_ok 4 27457161967136632372853627203548351065399521153702532326641964625665699 2 99855967236273410984781113479156854 (Leaf 274967663196021973118692602986121187 1)); [vm_cast_no_check (eq_refl true)|].
  cbn [flist app map fst]. apply Forall_cons; [exact order_274967663196021973118692602986121187|]. apply Forall_nil.
Qed.
Lemma order_316451476133982902951354408411587749012783822205614291537617326465903759260427804068704616638813236230542801471 : prime 316451476133982902951354408411587749012783822205614291537617326465903759260427804068704616638813236230542801471.
Proof.
  apply (fplus_ok 6 (-1) 316451476133982902951354408411587749012783822205614291537617326465903759260427804068704616638813236230542801471 (2, 1) 27457161967136632372853627203548351065399521153702532326641964625665699 11525279870976556585018040189594468008128); [vm_cast_no_check (eq_refl true)|exact order_27457161967136632372853627203548351065399521153702532326641964625665699].
Qed.
Lemma order_E382 : prime (2 ^ 380 - 1030303207694556153926491950732314247062623204330168346855).
Proof.
  apply (fplus_ok 7 (3) (2 ^ 380 - 1030303207694556153926491950732314247062623204330168346855) (1, 1) 316451476133982902951354408411587749012783822205614291537617326465903759260427804068704616638813236230542801471 7782); [vm_cast_no_check (eq_refl true)|exact order_316451476133982902951354408411587749012783822205614291537617326465903759260427804068704616638813236230542801471].
Qed.
Lemma order_3 : prime 3.
Proof. apply trial_ok. vm_cast_no_check (eq_refl true). Qed.
Lemma order_4561 : prime 4561.
Proof. apply trial_ok. vm_cast_no_check (eq_refl true). Qed.
Lemma order_1696693 : prime 1696693.
Proof.
  apply (fpock_ok 1 1696693 2 372 (Leaf 4561 1)); [vm_cast_no_check (eq_refl true)|].
  cbn [flist app map fst]. apply Forall_cons; [exact order_4561|]. apply Forall_nil.
Qed.
Lemma order_13904599344773 : prime 13904599344773.
Proof.
  apply (fplus2_ok 1 (2) 13904599344773 (5, 1) (1, 1) 3 1696693 4634866448258 8195118 3393385); [vm_cast_no_check (eq_refl true)|exact order_3|exact order_1696693].
Qed.
Lemma order_131342845410725759 : prime 131342845410725759.
Proof.
  apply (fpock_ok 1 131342845410725759 2 9446 (Leaf 13904599344773 1)); [vm_cast_no_check (eq_refl true)|].
  cbn [flist app map fst]. apply Forall_cons; [exact order_13904599344773|]. apply Forall_nil.
Qed.
Lemma order_4868010057124911294296551654477037 : prime 4868010057124911294296551654477037.
Proof.
  apply (fpock_ok 2 4868010057124911294296551654477037 2 37063382035786004 (Leaf 131342845410725759 1)); [vm_cast_no_check (eq_refl true)|].
  cbn [flist app map fst]. apply Forall_cons; [exact order_131342845410725759|]. apply Forall_nil.
Qed.
Lemma order_592299861982871449195634528262215319398393153 : prime 592299861982871449195634528262215319398393153.
Proof.
  apply (fpock_ok 3 592299861982871449195634528262215319398393153 2 121671864896 (Leaf 4868010057124911294296551654477037 1)); [vm_cast_no_check (eq_refl true)|].
  cbn [flist app map fst]. apply Forall_cons; [exact order_4868010057124911294296551654477037|]. apply Forall_nil.
Qed.
Lemma order_3376384040438327312767543585515740988479041826522993 : prime 3376384040438327312767543585515740988479041826522993.
Proof.
  apply (fpock_ok 3 3376384040438327312767543585515740988479041826522993 2 5700464 (Leaf 592299861982871449195634528262215319398393153 1)); [vm_cast_no_check (eq_refl true)|].
  cbn [flist app map fst]. apply Forall_cons; [exact order_592299861982871449195634528262215319398393153|]. apply Forall_nil.
Qed.
Lemma order_2394768781123004469808382870696186422325158931040989687224220336205960556679 : prime 2394768781123004469808382870696186422325158931040989687224220336205960556679.
Proof.
  apply (fpock_ok 4 2394768781123004469808382870696186422325158931040989687224220336205960556679 2 709270258489941192643046 (Leaf 3376384040438327312767543585515740988479041826522993 1)); [vm_cast_no_check (eq_refl true)|].
  cbn [flist app map fst]. apply Forall_cons; [exact order_3376384040438327312767543585515740988479041826522993|]. apply Forall_nil.
Qed.
Lemma order_181015782627525661863876044430183339290714113279526328477904366773136146558252253 : prime 181015782627525661863876044430183339290714113279526328477904366773136146558252253.
Proof.
  apply (fpock_ok 5 181015782627525661863876044430183339290714113279526328477904366773136146558252253 2 75588 (Leaf 2394768781123004469808382870696186422325158931040989687224220336205960556679 1)); [vm_cast_no_check (eq_refl true)|].
  cbn [flist app map fst]. apply Forall_cons; [exact order_2394768781123004469808382870696186422325158931040989687224220336205960556679|]. apply Forall_nil.
Qed.
Lemma order_7005507114193524029414407471112866694107408372181827430432047949693881095742546770048184168812214569007093 : prime 7005507114193524029414407471112866694107408372181827430432047949693881095742546770048184168812214569007093.
Proof.
  apply (fpock_ok 6 7005507114193524029414407471112866694107408372181827430432047949693881095742546770048184168812214569007093 2 38701084582269187512479364 (Leaf 181015782627525661863876044430183339290714113279526328477904366773136146558252253 1)); [vm_cast_no_check (eq_refl true)|].
  cbn [flist app map fst]. apply Forall_cons; [exact order_181015782627525661863876044430183339290714113279526328477904366773136146558252253|]. apply Forall_nil.
Qed.
Lemma order_Curve41417 : prime (2 ^ 411 - 33364140863755142520810177694098385178984727200411208589594759).
Proof.
  apply (fpock_ok 7 (2 ^ 411 - 33364140863755142520810177694098385178984727200411208589594759) 2 754898633905790616 (Leaf 7005507114193524029414407471112866694107408372181827430432047949693881095742546770048184168812214569007093 1)); [vm_cast_no_check (eq_refl true)|].
  cbn [flist app map fst]. apply Forall_cons; [exact order_7005507114193524029414407471112866694107408372181827430432047949693881095742546770048184168812214569007093|]. apply Forall_nil.
Qed.
Lemma order_307 : prime 307.
Proof. apply trial_ok. vm_cast_no_check (eq_refl true). Qed.
Lemma order_909463 : prime 909463.
Proof. apply trial_ok. vm_cast_no_check (eq_refl true). Qed.
Lemma order_5456777 : prime 5456777.
Proof.
  apply (fplus_ok 1 (3) 5456777 (1, 1) 909463 6); [vm_cast_no_check (eq_refl true)|exact order_909463].
Qed.
Lemma order_136651 : prime 136651.
Proof. apply trial_ok. vm_cast_no_check (eq_refl true). Qed.
Lemma order_1547162621 : prime 1547162621.
Proof.
  apply (fplus_ok 1 (2) 1547162621 (1, 1) 136651 11322); [vm_cast_no_check (eq_refl true)|exact order_136651].
Qed.
Lemma order_16247843220936739491319423 : prime 16247843220936739491319423.
Proof.
  apply (fpock_ok 2 16247843220936739491319423 2 1924524966 (Node (Leaf 5456777 1) (Leaf 1547162621 1))); [vm_cast_no_check (eq_refl true)|].
  cbn [flist app map fst]. apply Forall_cons; [exact order_5456777|]. apply Forall_cons; [exact order_1547162621|]. apply Forall_nil.
Qed.
Lemma order_70258120606036366544140183498310321834404388245296763 : prime 70258120606036366544140183498310321834404388245296763.
Proof.
  apply (fplus2_ok 3 (-1) 70258120606036366544140183498310321834404388245296763 (2, 1) (2, 1) 307 16247843220936739491319423 228853813048978392651922421818600396854737420994452 4324150574982330727717512068 2827124720442992671489579601); [vm_cast_no_check (eq_refl true)|exact order_307|exact order_16247843220936739491319423].
Qed.
Lemma order_2550607742561656334918354913693665034166946459781668810655392038686863133017 : prime 2550607742561656334918354913693665034166946459781668810655392038686863133017.
Proof.
  apply (fplus_ok 4 (3) 2550607742561656334918354913693665034166946459781668810655392038686863133017 (1, 1) 70258120606036366544140183498310321834404388245296763 36303387004384455227886); [vm_cast_no_check (eq_refl true)|exact order_70258120606036366544140183498310321834404388245296763].
Qed.
Lemma order_38916407753682983861283783766663832991809018999410768212336775108672551624633480899 : prime 38916407753682983861283783766663832991809018999410768212336775108672551624633480899.
Proof.
  apply (fplus_ok 5 (-1) 38916407753682983861283783766663832991809018999410768212336775108672551624633480899 (2, 1) 2550607742561656334918354913693665034166946459781668810655392038686863133017 15257700); [vm_cast_no_check (eq_refl true)|exact order_2550607742561656334918354913693665034166946459781668810655392038686863133017].
Qed.
Lemma order_252243041490141992091916747959634815169496193136845853336769661422832941962389811668187387649516185742186371754593 : prime 252243041490141992091916747959634815169496193136845853336769661422832941962389811668187387649516185742186371754593.
Proof.
  apply (fpock_ok 6 252243041490141992091916747959634815169496193136845853336769661422832941962389811668187387649516185742186371754593 2 6481663032381762721904233432608 (Leaf 38916407753682983861283783766663832991809018999410768212336775108672551624633480899 1)); [vm_cast_no_check (eq_refl true)|].
  cbn [flist app map fst]. apply Forall_cons; [exact order_38916407753682983861283783766663832991809018999410768212336775108672551624633480899|]. apply Forall_nil.
Qed.
Lemma order_22678127291974494752999082758512529677847838471000074610295040629304883810213774415831891245381957284486015221359371338545320928049961 : prime 22678127291974494752999082758512529677847838471000074610295040629304883810213774415831891245381957284486015221359371338545320928049961.
Proof.
  apply (fpock_ok 8 22678127291974494752999082758512529677847838471000074610295040629304883810213774415831891245381957284486015221359371338545320928049961 2 89905858881188551720 (Leaf 252243041490141992091916747959634815169496193136845853336769661422832941962389811668187387649516185742186371754593 1)); [vm_cast_no_check (eq_refl true)|].
  cbn [flist app map fst]. apply Forall_cons; [exact order_252243041490141992091916747959634815169496193136845853336769661422832941962389811668187387649516185742186371754593|]. apply Forall_nil.
Qed.
Lemma order_E521 : prime (2 ^ 519 - 337554763258501705789107630418782636071904961214051226618635150085779108655765).
Proof.
  apply (fpock_ok 9 (2 ^ 519 - 337554763258501705789107630418782636071904961214051226618635150085779108655765) 2 75676416881211964512602 (Leaf 22678127291974494752999082758512529677847838471000074610295040629304883810213774415831891245381957284486015221359371338545320928049961 1)); [vm_cast_no_check (eq_refl true)|].
  cbn [flist app map fst]. apply Forall_cons; [exact order_22678127291974494752999082758512529677847838471000074610295040629304883810213774415831891245381957284486015221359371338545320928049961|]. apply Forall_nil.
Qed.
Lemma order_323131 : prime 323131.
Proof. apply trial_ok. vm_cast_no_check (eq_refl true). Qed.
Lemma order_3398045597 : prime 3398045597.
Proof.
  apply (fpock_ok 1 3398045597 2 10516 (Leaf 323131 1)); [vm_cast_no_check (eq_refl true)|].
  cbn [flist app map fst]. apply Forall_cons; [exact order_323131|]. apply Forall_nil.
Qed.
Lemma order_449 : prime 449.
Proof. apply trial_ok. vm_cast_no_check (eq_refl true). Qed.
Lemma order_445463 : prime 445463.
Proof. apply trial_ok. vm_cast_no_check (eq_refl true). Qed.
Lemma order_7240555601 : prime 7240555601.
Proof.
  apply (fplus_ok 1 (3) 7240555601 (1, 1) 445463 16254); [vm_cast_no_check (eq_refl true)|exact order_445463].
Qed.
Lemma order_6487537818497 : prime 6487537818497.
Proof.
  apply (fpock_ok 1 6487537818497 2 896 (Leaf 7240555601 1)); [vm_cast_no_check (eq_refl true)|].
  cbn [flist app map fst]. apply Forall_cons; [exact order_7240555601|]. apply Forall_nil.
Qed.
Lemma order_293832518631314000633668609 : prime 293832518631314000633668609.
Proof.
  apply (fpock_ok 2 293832518631314000633668609 2 100872692736 (Node (Leaf 449 1) (Leaf 6487537818497 1))); [vm_cast_no_check (eq_refl true)|].
  cbn [flist app map fst]. apply Forall_cons; [exact order_449|]. apply Forall_cons; [exact order_6487537818497|]. apply Forall_nil.
Qed.
Lemma order_M221 : prime (2 ^ 218 + 438651314700378199859927091142747).
Proof.
  apply (fpock_ok 4 (2 ^ 218 + 438651314700378199859927091142747) 2 421900456015385433543680000930 (Node (Leaf 3398045597 1) (Leaf 293832518631314000633668609 1))); [vm_cast_no_check (eq_refl true)|].
  cbn [flist app map fst]. apply Forall_cons; [exact order_3398045597|]. apply Forall_cons; [exact order_293832518631314000633668609|]. apply Forall_nil.
Qed.
Lemma order_230003 : prime 230003.
Proof. apply trial_ok. vm_cast_no_check (eq_refl true). Qed.
Lemma order_4519453 : prime 4519453.
Proof.
  apply (fplus_ok 1 (2) 4519453 (1, 1) 5171 874); [vm_cast_no_check (eq_refl true)|exact order_5171].
Qed.
Lemma order_1601667026483 : prime 1601667026483.
Proof.
  apply (fpock_ok 1 1601667026483 2 354394 (Leaf 4519453 1)); [vm_cast_no_check (eq_refl true)|].
  cbn [flist app map fst]. apply Forall_cons; [exact order_4519453|]. apply Forall_nil.
Qed.
Lemma order_41643342688559 : prime 41643342688559.
Proof.
  apply (fpock_ok 1 41643342688559 2 26 (Leaf 1601667026483 1)); [vm_cast_no_check (eq_refl true)|].
  cbn [flist app map fst]. apply Forall_cons; [exact order_1601667026483|]. apply Forall_nil.
Qed.
Lemma order_10041822019293734396009 : prime 10041822019293734396009.
Proof.
  apply (fpock_ok 2 10041822019293734396009 2 241138712 (Leaf 41643342688559 1)); [vm_cast_no_check (eq_refl true)|].
  cbn [flist app map fst]. apply Forall_cons; [exact order_41643342688559|]. apply Forall_nil.
Qed.
Lemma order_120501864231524812752109 : prime 120501864231524812752109.
Proof.
  apply (fpock_ok 2 120501864231524812752109 2 12 (Leaf 10041822019293734396009 1)); [vm_cast_no_check (eq_refl true)|].
  cbn [flist app map fst]. apply Forall_cons; [exact order_10041822019293734396009|]. apply Forall_nil.
Qed.
Lemma order_9779579430137469602537202763911525536092639781018227 : prime 9779579430137469602537202763911525536092639781018227.
Proof.
  apply (fpock_ok 3 9779579430137469602537202763911525536092639781018227 2 352852266947719810881438 (Node (Leaf 230003 1) (Leaf 120501864231524812752109 1))); [vm_cast_no_check (eq_refl true)|].
  cbn [flist app map fst]. apply Forall_cons; [exact order_230003|]. apply Forall_cons; [exact order_120501864231524812752109|]. apply Forall_nil.
Qed.
Lemma order_1466936914520620440380580414586728830413895967152734051 : prime 1466936914520620440380580414586728830413895967152734051.
Proof.
  apply (fpock_ok 3 1466936914520620440380580414586728830413895967152734051 2 150 (Leaf 9779579430137469602537202763911525536092639781018227 1)); [vm_cast_no_check (eq_refl true)|].
  cbn [flist app map fst]. apply Forall_cons; [exact order_9779579430137469602537202763911525536092639781018227|]. apply Forall_nil.
Qed.
Lemma order_Curve25519 : prime (2 ^ 252 + 27742317777372353535851937790883648493).
Proof.
  apply (fplus_ok 5 (2) (2 ^ 252 + 27742317777372353535851937790883648493) (1, 1) 1466936914520620440380580414586728830413895967152734051 4933412954365007266490); [vm_cast_no_check (eq_refl true)|exact order_1466936914520620440380580414586728830413895967152734051].
Qed.
Lemma order_422707 : prime 422707.
Proof. apply trial_ok. vm_cast_no_check (eq_refl true). Qed.
Lemma order_2801701997 : prime 2801701997.
Proof.
  apply (fpock_ok 1 2801701997 2 6628 (Leaf 422707 1)); [vm_cast_no_check (eq_refl true)|].
  cbn [flist app map fst]. apply Forall_cons; [exact order_422707|]. apply Forall_nil.
Qed.
Lemma order_715138273065985889 : prime 715138273065985889.
Proof.
  apply (fplus_ok 1 (3) 715138273065985889 (1, 1) 2801701997 255251370); [vm_cast_no_check (eq_refl true)|exact order_2801701997].
Qed.
Lemma order_138897064261279495097010689063 : prime 138897064261279495097010689063.
Proof.
  apply (fpock_ok 2 138897064261279495097010689063 2 194224067558 (Leaf 715138273065985889 1)); [vm_cast_no_check (eq_refl true)|].
  cbn [flist app map fst]. apply Forall_cons; [exact order_715138273065985889|]. apply Forall_nil.
Qed.
Lemma order_259151 : prime 259151.
Proof. apply trial_ok. vm_cast_no_check (eq_refl true). Qed.
Lemma order_2073209 : prime 2073209.
Proof.
  apply (fpock_ok 1 2073209 2 8 (Leaf 259151 1)); [vm_cast_no_check (eq_refl true)|].
  cbn [flist app map fst]. apply Forall_cons; [exact order_259151|]. apply Forall_nil.
Qed.
Lemma order_1219046893 : prime 1219046893.
Proof.
  apply (fpock_ok 1 1219046893 2 588 (Leaf 2073209 1)); [vm_cast_no_check (eq_refl true)|].
  cbn [flist app map fst]. apply Forall_cons; [exact order_2073209|]. apply Forall_nil.
Qed.
Lemma order_12190468931 : prime 12190468931.
Proof.
  apply (fpock_ok 1 12190468931 2 10 (Leaf 1219046893 1)); [vm_cast_no_check (eq_refl true)|].
  cbn [flist app map fst]. apply Forall_cons; [exact order_1219046893|]. apply Forall_nil.
Qed.
Lemma order_74020527349031 : prime 74020527349031.
Proof.
  apply (fplus_ok 1 (-1) 74020527349031 (2, 1) 12190468931 6072); [vm_cast_no_check (eq_refl true)|exact order_12190468931].
Qed.
Lemma order_479208894057626693 : prime 479208894057626693.
Proof.
  apply (fplus_ok 1 (2) 479208894057626693 (1, 1) 74020527349031 6474); [vm_cast_no_check (eq_refl true)|exact order_74020527349031].
Qed.
Lemma order_289450259140102639080071069 : prime 289450259140102639080071069.
Proof.
  apply (fpock_ok 2 289450259140102639080071069 2 604016876 (Leaf 479208894057626693 1)); [vm_cast_no_check (eq_refl true)|].
  cbn [flist app map fst]. apply Forall_cons; [exact order_479208894057626693|]. apply Forall_nil.
Qed.
Lemma order_60934327561511008916380516463943361 : prime 60934327561511008916380516463943361.
Proof.
  apply (fpock_ok 2 60934327561511008916380516463943361 2 210517440 (Leaf 289450259140102639080071069 1)); [vm_cast_no_check (eq_refl true)|].
  cbn [flist app map fst]. apply Forall_cons; [exact order_289450259140102639080071069|]. apply Forall_nil.
Qed.
Lemma order_23978163906116309806674273528410869974800147232588444606571758029980837570993229680578504611504832152780419 : prime 23978163906116309806674273528410869974800147232588444606571758029980837570993229680578504611504832152780419.
Proof.
  apply (fpock_ok 6 23978163906116309806674273528410869974800147232588444606571758029980837570993229680578504611504832152780419 2 2833093026766908849912860188704346396167726 (Node (Leaf 138897064261279495097010689063 1) (Leaf 60934327561511008916380516463943361 1))); [vm_cast_no_check (eq_refl true)|].
  cbn [flist app map fst]. apply Forall_cons; [exact order_138897064261279495097010689063|]. apply Forall_cons; [exact order_60934327561511008916380516463943361|]. apply Forall_nil.
Qed.
Lemma order_M383 : prime (2 ^ 380 + 166236275931373516105219794935542153308039234455761613271).
Proof.
  apply (fpock_ok 7 (2 ^ 380 + 166236275931373516105219794935542153308039234455761613271) 2 102702834 (Leaf 23978163906116309806674273528410869974800147232588444606571758029980837570993229680578504611504832152780419 1)); [vm_cast_no_check (eq_refl true)|].
  cbn [flist app map fst]. apply Forall_cons; [exact order_23978163906116309806674273528410869974800147232588444606571758029980837570993229680578504611504832152780419|]. apply Forall_nil.
Qed.
Lemma order_189559 : prime 189559.
Proof. apply trial_ok. vm_cast_no_check (eq_refl true). Qed.
Lemma order_7203241 : prime 7203241.
Proof.
  apply (fplus_ok 1 (7) 7203241 (1, 1) 189559 38); [vm_cast_no_check (eq_refl true)|exact order_189559].
Qed.
Lemma order_590665763 : prime 590665763.
Proof.
  apply (fpock_ok 1 590665763 2 82 (Leaf 7203241 1)); [vm_cast_no_check (eq_refl true)|].
  cbn [flist app map fst]. apply Forall_cons; [exact order_7203241|]. apply Forall_nil.
Qed.
Lemma order_64973233931 : prime 64973233931.
Proof.
  apply (fpock_ok 1 64973233931 2 110 (Leaf 590665763 1)); [vm_cast_no_check (eq_refl true)|].
  cbn [flist app map fst]. apply Forall_cons; [exact order_590665763|]. apply Forall_nil.
Qed.
Lemma order_12381039564955637 : prime 12381039564955637.
Proof.
  apply (fpock_ok 1 12381039564955637 2 190556 (Leaf 64973233931 1)); [vm_cast_no_check (eq_refl true)|].
  cbn [flist app map fst]. apply Forall_cons; [exact order_64973233931|]. apply Forall_nil.
Qed.
Lemma order_202001 : prime 202001.
Proof. apply trial_ok. vm_cast_no_check (eq_refl true). Qed.
Lemma order_20484517409 : prime 20484517409.
Proof.
  apply (fpock_ok 1 20484517409 2 101408 (Leaf 202001 1)); [vm_cast_no_check (eq_refl true)|].
  cbn [flist app map fst]. apply Forall_cons; [exact order_202001|]. apply Forall_nil.
Qed.
Lemma order_40969034819 : prime 40969034819.
Proof.
  apply (fpock_ok 1 40969034819 2 2 (Leaf 20484517409 1)); [vm_cast_no_check (eq_refl true)|].
  cbn [flist app map fst]. apply Forall_cons; [exact order_20484517409|]. apply Forall_nil.
Qed.
Lemma order_30728906504060587 : prime 30728906504060587.
Proof.
  apply (fplus_ok 1 (-1) 30728906504060587 (2, 1) 40969034819 750052); [vm_cast_no_check (eq_refl true)|exact order_40969034819].
Qed.
Lemma order_48081405927762079532376987730897 : prime 48081405927762079532376987730897.
Proof.
  apply (fpock_ok 2 48081405927762079532376987730897 2 1564696287562608 (Leaf 30728906504060587 1)); [vm_cast_no_check (eq_refl true)|].
  cbn [flist app map fst]. apply Forall_cons; [exact order_30728906504060587|]. apply Forall_nil.
Qed.
Lemma order_518814721046350592855056622974095979443952345219920546439772194066760238412125471463 : prime 518814721046350592855056622974095979443952345219920546439772194066760238412125471463.
Proof.
  apply (fplus2_ok 5 (-1) 518814721046350592855056622974095979443952345219920546439772194066760238412125471463 (2, 1) (2, 1) 12381039564955637 48081405927762079532376987730897 41903970851918489827874181657082036936759072187372174766103381388872 10790340070875263521069861528981828008415133872363112 393049764501734741208221627863539880002331134395); [vm_cast_no_check (eq_refl true)|exact order_12381039564955637|exact order_48081405927762079532376987730897].
Qed.
Lemma order_794313638957499499270577370679308530064362143769221875328034265471314993172778690817396407 : prime 794313638957499499270577370679308530064362143769221875328034265471314993172778690817396407.
Proof.
  apply (fplus_ok 5 (-1) 794313638957499499270577370679308530064362143769221875328034265471314993172778690817396407 (2, 1) 518814721046350592855056622974095979443952345219920546439772194066760238412125471463 1531016); [vm_cast_no_check (eq_refl true)|exact order_518814721046350592855056622974095979443952345219920546439772194066760238412125471463].
Qed.
Lemma order_Curve383187 : prime (2 ^ 380 + 356080847217269887368687156533236720299699248977882517025).
Proof.
  apply (fpock_ok 7 (2 ^ 380 + 356080847217269887368687156533236720299699248977882517025) 2 3100318648067958009381600 (Leaf 794313638957499499270577370679308530064362143769221875328034265471314993172778690817396407 1)); [vm_cast_no_check (eq_refl true)|].
  cbn [flist app map fst]. apply Forall_cons; [exact order_794313638957499499270577370679308530064362143769221875328034265471314993172778690817396407|]. apply Forall_nil.
Qed.
Lemma order_80341 : prime 80341.
Proof. apply trial_ok. vm_cast_no_check (eq_refl true). Qed.
Lemma order_8034101 : prime 8034101.
Proof.
  apply (fpock_ok 1 8034101 2 100 (Leaf 80341 1)); [vm_cast_no_check (eq_refl true)|].
  cbn [flist app map fst]. apply Forall_cons; [exact order_80341|]. apply Forall_nil.
Qed.
Lemma order_16068203 : prime 16068203.
Proof.
  apply (fpock_ok 1 16068203 2 2 (Leaf 8034101 1)); [vm_cast_no_check (eq_refl true)|].
  cbn [flist app map fst]. apply Forall_cons; [exact order_8034101|]. apply Forall_nil.
Qed.
Lemma order_311 : prime 311.
Proof. apply trial_ok. vm_cast_no_check (eq_refl true). Qed.
Lemma order_23 : prime 23.
Proof. apply trial_ok. vm_cast_no_check (eq_refl true). Qed.
Lemma order_61 : prime 61.
Proof. apply trial_ok. vm_cast_no_check (eq_refl true). Qed.
Lemma order_6779 : prime 6779.
Proof. apply trial_ok. vm_cast_no_check (eq_refl true). Qed.
Lemma order_29633 : prime 29633.
Proof. apply trial_ok. vm_cast_no_check (eq_refl true). Qed.
Lemma order_255030389469389683584271007 : prime 255030389469389683584271007.
Proof.
  apply (fpock_ok 2 255030389469389683584271007 2 2909595518626 (Node (Node (Leaf 311 1) (Node (Leaf 23 1) (Leaf 61 1))) (Node (Leaf 6779 1) (Leaf 29633 1)))); [vm_cast_no_check (eq_refl true)|].
  cbn [flist app map fst]. apply Forall_cons; [exact order_311|]. apply Forall_cons; [exact order_23|]. apply Forall_cons; [exact order_61|]. apply Forall_cons; [exact order_6779|]. apply Forall_cons; [exact order_29633|]. apply Forall_nil.
Qed.
Lemma order_175698830905040208406599491194059834979306596008147565317608540217 : prime 175698830905040208406599491194059834979306596008147565317608540217.
Proof.
  apply (fpock_ok 4 175698830905040208406599491194059834979306596008147565317608540217 2 42875542460889488220493148663896 (Node (Leaf 16068203 1) (Leaf 255030389469389683584271007 1))); [vm_cast_no_check (eq_refl true)|].
  cbn [flist app map fst]. apply Forall_cons; [exact order_16068203|]. apply Forall_cons; [exact order_255030389469389683584271007|]. apply Forall_nil.
Qed.
Lemma order_481951380909394163830556360717830606579326875406533211634727376676402717 : prime 481951380909394163830556360717830606579326875406533211634727376676402717.
Proof.
  apply (fplus_ok 4 (2) 481951380909394163830556360717830606579326875406533211634727376676402717 (1, 1) 175698830905040208406599491194059834979306596008147565317608540217 2743054); [vm_cast_no_check (eq_refl true)|exact order_175698830905040208406599491194059834979306596008147565317608540217].
Qed.
Lemma order_53917219066346060400729058623789073545776925287007150959192119328344370477816696131 : prime 53917219066346060400729058623789073545776925287007150959192119328344370477816696131.
Proof.
  apply (fpock_ok 5 53917219066346060400729058623789073545776925287007150959192119328344370477816696131 2 111872734890 (Leaf 481951380909394163830556360717830606579326875406533211634727376676402717 1)); [vm_cast_no_check (eq_refl true)|].
  cbn [flist app map fst]. apply Forall_cons; [exact order_481951380909394163830556360717830606579326875406533211634727376676402717|]. apply Forall_nil.
Qed.
Lemma order_557935382898549033026744298638969333051699622869949998125720050809707545704447171563589 : prime 557935382898549033026744298638969333051699622869949998125720050809707545704447171563589.
Proof.
  apply (fpock_ok 5 557935382898549033026744298638969333051699622869949998125720050809707545704447171563589 2 10348 (Leaf 53917219066346060400729058623789073545776925287007150959192119328344370477816696131 1)); [vm_cast_no_check (eq_refl true)|].
  cbn [flist app map fst]. apply Forall_cons; [exact order_53917219066346060400729058623789073545776925287007150959192119328344370477816696131|]. apply Forall_nil.
Qed.
Lemma order_2548976895085716329697587681830411627347998276648179122037187115488620176814788894639353942333 : prime 2548976895085716329697587681830411627347998276648179122037187115488620176814788894639353942333.
Proof.
  apply (fpock_ok 5 2548976895085716329697587681830411627347998276648179122037187115488620176814788894639353942333 2 4568588 (Leaf 557935382898549033026744298638969333051699622869949998125720050809707545704447171563589 1)); [vm_cast_no_check (eq_refl true)|].
  cbn [flist app map fst]. apply Forall_cons; [exact order_557935382898549033026744298638969333051699622869949998125720050809707545704447171563589|]. apply Forall_nil.
Qed.
Lemma order_M511 : prime (2 ^ 508 + 10724754759635747624044531514068121842070756627434833028965540808827675062043).
Proof.
  apply (fplus_ok 9 (-1) (2 ^ 508 + 10724754759635747624044531514068121842070756627434833028965540808827675062043) (2, 1) 2548976895085716329697587681830411627347998276648179122037187115488620176814788894639353942333 328754645535236472646435918649548875628353302939541939873100); [vm_cast_no_check (eq_refl true)|exact order_2548976895085716329697587681830411627347998276648179122037187115488620176814788894639353942333].
Qed.
