(** Generated by tools/gen_nist.py: the parameters of the built-in curves are sound. *)
From Coq Require Import ZArith Znumtheory List Lia.
From Verif Require Import Base Zp EcGroup EcSpec Elliptic EcProofs Pock PockCheck OrderCheck Certs Ecc EccProofs.
Open Scope Z_scope.

Definition dummy_curve : curve := {| c_bits := 0; c_p := 0; c_N := 0; c_a := 0; c_b := 0; c_G := (0, 0) |}.

Lemma check_noroot_curve : forall a b n t, check_noroot a b n t = true -> prime n -> no_two_torsion n a b.
Proof. intros a b n t H P x. apply (check_noroot_ok a b n t H P). Qed.

(** ** the 192-bit curve *)
Definition P192 : curve := Eval vm_compute in match nist_curve 192 with Ok c => c | Raise _ => dummy_curve end.
Lemma P192_eq : nist_curve 192 = Ok P192. Proof. vm_compute. reflexivity. Qed.
Lemma P192_good : good_curve (c_p P192) (- c_a P192) (- c_b P192).
Proof. split; [exact prime_p192|]. split; [vm_compute; reflexivity|]. vm_compute. discriminate. Qed.
Lemma P192_no2 : no_two_torsion (c_p P192) (- c_a P192) (- c_b P192).
Proof. apply check_noroot_curve with (t := (3076984081099336410538445874700673783096882824010410041625, 4871298686935519674170250204910228760438566091784467946767, 105597762148406811168096478311383789005400348177979944870)); [vm_compute; reflexivity|exact prime_p192]. Qed.
Lemma P192_G : element (Some (c_G P192)) (c_a P192) (c_b P192) (c_p P192) = true.
Proof. vm_compute. reflexivity. Qed.
Lemma P192_order : gmul (c_p P192) (- c_a P192) (c_N P192) (den (c_p P192) (Some (c_G P192))) = GO (c_p P192).
Proof.
  apply (check_order_ok (c_a P192) (c_b P192) (c_p P192) (fst (c_G P192)) (snd (c_G P192)) (c_N P192) P192_good P192_no2 P192_G).
  vm_compute. reflexivity.
Qed.
Lemma P192_sound : sound_curve P192.
Proof.
  split; [exact P192_good|exact P192_no2|exact prime_n192|vm_compute; reflexivity|exact P192_G| |exact P192_order|vm_compute; reflexivity|vm_compute; reflexivity|vm_compute; reflexivity].
  split; (split; [vm_compute; discriminate|vm_compute; reflexivity]).
Qed.

(** ** the 224-bit curve *)
Definition P224 : curve := Eval vm_compute in match nist_curve 224 with Ok c => c | Raise _ => dummy_curve end.
Lemma P224_eq : nist_curve 224 = Ok P224. Proof. vm_compute. reflexivity. Qed.
Lemma P224_good : good_curve (c_p P224) (- c_a P224) (- c_b P224).
Proof. split; [exact prime_p224|]. split; [vm_compute; reflexivity|]. vm_compute. discriminate. Qed.
Lemma P224_no2 : no_two_torsion (c_p P224) (- c_a P224) (- c_b P224).
Proof. apply check_noroot_curve with (t := (1261710631285627074303005901530361786216288604486499842249704943048, 4447412785031720342771701563499662000791675740805516550464163634437, 9439789507511725786058244597052783711805086828869674293526675889612)); [vm_compute; reflexivity|exact prime_p224]. Qed.
Lemma P224_G : element (Some (c_G P224)) (c_a P224) (c_b P224) (c_p P224) = true.
Proof. vm_compute. reflexivity. Qed.
Lemma P224_order : gmul (c_p P224) (- c_a P224) (c_N P224) (den (c_p P224) (Some (c_G P224))) = GO (c_p P224).
Proof.
  apply (check_order_ok (c_a P224) (c_b P224) (c_p P224) (fst (c_G P224)) (snd (c_G P224)) (c_N P224) P224_good P224_no2 P224_G).
  vm_compute. reflexivity.
Qed.
Lemma P224_sound : sound_curve P224.
Proof.
  split; [exact P224_good|exact P224_no2|exact prime_n224|vm_compute; reflexivity|exact P224_G| |exact P224_order|vm_compute; reflexivity|vm_compute; reflexivity|vm_compute; reflexivity].
  split; (split; [vm_compute; discriminate|vm_compute; reflexivity]).
Qed.

(** ** the 256-bit curve *)
Definition P256 : curve := Eval vm_compute in match nist_curve 256 with Ok c => c | Raise _ => dummy_curve end.
Lemma P256_eq : nist_curve 256 = Ok P256. Proof. vm_compute. reflexivity. Qed.
Lemma P256_good : good_curve (c_p P256) (- c_a P256) (- c_b P256).
Proof. split; [exact prime_p256|]. split; [vm_compute; reflexivity|]. vm_compute. discriminate. Qed.
Lemma P256_no2 : no_two_torsion (c_p P256) (- c_a P256) (- c_b P256).
Proof. apply check_noroot_curve with (t := (76626890310466861426869089647039036757962535851890885406097439786770458211455, 74462945259064871768191128030512052509059297803194871526163573358218695456204, 34768139465301476436978405170953382516735956999154666452188405812258086013549)); [vm_compute; reflexivity|exact prime_p256]. Qed.
Lemma P256_G : element (Some (c_G P256)) (c_a P256) (c_b P256) (c_p P256) = true.
Proof. vm_compute. reflexivity. Qed.
Lemma P256_order : gmul (c_p P256) (- c_a P256) (c_N P256) (den (c_p P256) (Some (c_G P256))) = GO (c_p P256).
Proof.
  apply (check_order_ok (c_a P256) (c_b P256) (c_p P256) (fst (c_G P256)) (snd (c_G P256)) (c_N P256) P256_good P256_no2 P256_G).
  vm_compute. reflexivity.
Qed.
Lemma P256_sound : sound_curve P256.
Proof.
  split; [exact P256_good|exact P256_no2|exact prime_n256|vm_compute; reflexivity|exact P256_G| |exact P256_order|vm_compute; reflexivity|vm_compute; reflexivity|vm_compute; reflexivity].
  split; (split; [vm_compute; discriminate|vm_compute; reflexivity]).
Qed.

(** ** the 384-bit curve *)
Definition P384 : curve := Eval vm_compute in match nist_curve 384 with Ok c => c | Raise _ => dummy_curve end.
Lemma P384_eq : nist_curve 384 = Ok P384. Proof. vm_compute. reflexivity. Qed.
Lemma P384_good : good_curve (c_p P384) (- c_a P384) (- c_b P384).
Proof. split; [exact prime_p384|]. split; [vm_compute; reflexivity|]. vm_compute. discriminate. Qed.
Lemma P384_no2 : no_two_torsion (c_p P384) (- c_a P384) (- c_b P384).
Proof. apply check_noroot_curve with (t := (23037766613497683937702734290281044719364893268180251583910224888989381657771069200037813904257325918671976092329602, 8235438212423615602427778915669574859600037698862346933589434399495169446996583974901273360826717582835190849638831, 12157362177932134139146813183752135342286725243554133716818896354380897714709611791313184492360272402950851405460538)); [vm_compute; reflexivity|exact prime_p384]. Qed.
Lemma P384_G : element (Some (c_G P384)) (c_a P384) (c_b P384) (c_p P384) = true.
Proof. vm_compute. reflexivity. Qed.
Lemma P384_order : gmul (c_p P384) (- c_a P384) (c_N P384) (den (c_p P384) (Some (c_G P384))) = GO (c_p P384).
Proof.
  apply (check_order_ok (c_a P384) (c_b P384) (c_p P384) (fst (c_G P384)) (snd (c_G P384)) (c_N P384) P384_good P384_no2 P384_G).
  vm_compute. reflexivity.
Qed.
Lemma P384_sound : sound_curve P384.
Proof.
  split; [exact P384_good|exact P384_no2|exact prime_n384|vm_compute; reflexivity|exact P384_G| |exact P384_order|vm_compute; reflexivity|vm_compute; reflexivity|vm_compute; reflexivity].
  split; (split; [vm_compute; discriminate|vm_compute; reflexivity]).
Qed.

(** ** the 521-bit curve *)
Definition P521 : curve := Eval vm_compute in match nist_curve 521 with Ok c => c | Raise _ => dummy_curve end.
Lemma P521_eq : nist_curve 521 = Ok P521. Proof. vm_compute. reflexivity. Qed.
Lemma P521_good : good_curve (c_p P521) (- c_a P521) (- c_b P521).
Proof. split; [exact prime_p521|]. split; [vm_compute; reflexivity|]. vm_compute. discriminate. Qed.
Lemma P521_no2 : no_two_torsion (c_p P521) (- c_a P521) (- c_b P521).
Proof. apply check_noroot_curve with (t := (5556850081864827842302249485475501585472702946772625307642304195702912034363837867267334216347521692509406916620096684956176894315447091116492501000392161958, 2592645775458497527836362227091103884154287512470494672274301275565663408730650270660448980645397363205839490313252565391972848223674401530161387302727484004, 3919380404691066388712376322317341026252002696138380915147944189379687824774581460974855590730258562532022938584569429027963361353339635641909491533809725330)); [vm_compute; reflexivity|exact prime_p521]. Qed.
Lemma P521_G : element (Some (c_G P521)) (c_a P521) (c_b P521) (c_p P521) = true.
Proof. vm_compute. reflexivity. Qed.
Lemma P521_order : gmul (c_p P521) (- c_a P521) (c_N P521) (den (c_p P521) (Some (c_G P521))) = GO (c_p P521).
Proof.
  apply (check_order_ok (c_a P521) (c_b P521) (c_p P521) (fst (c_G P521)) (snd (c_G P521)) (c_N P521) P521_good P521_no2 P521_G).
  vm_compute. reflexivity.
Qed.
Lemma P521_sound : sound_curve P521.
Proof.
  split; [exact P521_good|exact P521_no2|exact prime_n521|vm_compute; reflexivity|exact P521_G| |exact P521_order|vm_compute; reflexivity|vm_compute; reflexivity|vm_compute; reflexivity].
  split; (split; [vm_compute; discriminate|vm_compute; reflexivity]).
Qed.
