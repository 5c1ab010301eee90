(** Generated by tools/gen_certs.py: primality certificates (Pocklington, and Morrison for one of them) for the NIST field primes and group orders. *)
From Coq Require Import ZArith Znumtheory List.
From Verif Require Import Pock PockCheck Lucas.
Import ListNotations.
Open Scope Z_scope.

Lemma prime_907 : prime 907. Proof. apply small_prime_ok. vm_compute. reflexivity. Qed.
Lemma prime_275729 : prime 275729.
Proof. apply (check_pock_ok _ 2 [(907, 1)]); [vm_compute; reflexivity|].
  repeat (apply Forall_cons; [cbn [fst]|]); [exact prime_907|apply Forall_nil]. Qed.
Lemma prime_31 : prime 31. Proof. apply small_prime_ok. vm_compute. reflexivity. Qed.
Lemma prime_7 : prime 7. Proof. apply small_prime_ok. vm_compute. reflexivity. Qed.
Lemma prime_5 : prime 5. Proof. apply small_prime_ok. vm_compute. reflexivity. Qed.
Lemma prime_54251 : prime 54251.
Proof. apply (check_pock_ok _ 2 [(31, 1); (7, 1); (5, 1)]); [vm_compute; reflexivity|].
  repeat (apply Forall_cons; [cbn [fst]|]); [exact prime_31|exact prime_7|exact prime_5|apply Forall_nil]. Qed.
Lemma prime_108341181769254293 : prime 108341181769254293.
Proof. apply (check_pock_ok _ 2 [(275729, 1); (54251, 1)]); [vm_compute; reflexivity|].
  repeat (apply Forall_cons; [cbn [fst]|]); [exact prime_275729|exact prime_54251|apply Forall_nil]. Qed.
Lemma prime_283 : prime 283. Proof. apply small_prime_ok. vm_compute. reflexivity. Qed.
Lemma prime_61 : prime 61. Proof. apply small_prime_ok. vm_compute. reflexivity. Qed.
Lemma prime_379787 : prime 379787.
Proof. apply (check_pock_ok _ 2 [(283, 1); (61, 1)]); [vm_compute; reflexivity|].
  repeat (apply Forall_cons; [cbn [fst]|]); [exact prime_283|exact prime_61|apply Forall_nil]. Qed.
Lemma prime_11393611 : prime 11393611.
Proof. apply (check_pock_ok _ 2 [(379787, 1)]); [vm_compute; reflexivity|].
  repeat (apply Forall_cons; [cbn [fst]|]); [exact prime_379787|apply Forall_nil]. Qed.
Lemma prime_229 : prime 229. Proof. apply small_prime_ok. vm_compute. reflexivity. Qed.
Lemma prime_163 : prime 163. Proof. apply small_prime_ok. vm_compute. reflexivity. Qed.
Lemma prime_149309 : prime 149309.
Proof. apply (check_pock_ok _ 2 [(229, 1); (163, 1)]); [vm_compute; reflexivity|].
  repeat (apply Forall_cons; [cbn [fst]|]); [exact prime_229|exact prime_163|apply Forall_nil]. Qed.
Lemma prime_6277101735386680763835789423207666416083908700390324961279 : prime 6277101735386680763835789423207666416083908700390324961279.
Proof. apply (check_pock_ok _ 2 [(108341181769254293, 1); (11393611, 1); (149309, 1)]); [vm_compute; reflexivity|].
  repeat (apply Forall_cons; [cbn [fst]|]); [exact prime_108341181769254293|exact prime_11393611|exact prime_149309|apply Forall_nil]. Qed.
(** curves.py: field prime of the 192-bit curve *)
Lemma prime_p192 : prime 0xfffffffffffffffffffffffffffffffeffffffffffffffff. Proof. exact prime_6277101735386680763835789423207666416083908700390324961279. Qed.
Lemma prime_569 : prime 569. Proof. apply small_prime_ok. vm_compute. reflexivity. Qed.
Lemma prime_6829 : prime 6829.
Proof. apply (check_pock_ok _ 2 [(569, 1)]); [vm_compute; reflexivity|].
  repeat (apply Forall_cons; [cbn [fst]|]); [exact prime_569|apply Forall_nil]. Qed.
Lemma prime_46245989 : prime 46245989.
Proof. apply (check_pock_ok _ 2 [(6829, 1)]); [vm_compute; reflexivity|].
  repeat (apply Forall_cons; [cbn [fst]|]); [exact prime_6829|apply Forall_nil]. Qed.
Lemma prime_881 : prime 881. Proof. apply small_prime_ok. vm_compute. reflexivity. Qed.
Lemma prime_54623 : prime 54623.
Proof. apply (check_pock_ok _ 2 [(881, 1)]); [vm_compute; reflexivity|].
  repeat (apply Forall_cons; [cbn [fst]|]); [exact prime_881|apply Forall_nil]. Qed.
Lemma prime_7244839476697597 : prime 7244839476697597.
Proof. apply (check_pock_ok _ 2 [(46245989, 1); (54623, 1)]); [vm_compute; reflexivity|].
  repeat (apply Forall_cons; [cbn [fst]|]); [exact prime_46245989|exact prime_54623|apply Forall_nil]. Qed.
Lemma prime_9564682313913860059195669 : prime 9564682313913860059195669.
Proof. apply (check_pock_ok _ 2 [(7244839476697597, 1)]); [vm_compute; reflexivity|].
  repeat (apply Forall_cons; [cbn [fst]|]); [exact prime_7244839476697597|apply Forall_nil]. Qed.
Lemma prime_199 : prime 199. Proof. apply small_prime_ok. vm_compute. reflexivity. Qed.
Lemma prime_2389 : prime 2389.
Proof. apply (check_pock_ok _ 2 [(199, 1)]); [vm_compute; reflexivity|].
  repeat (apply Forall_cons; [cbn [fst]|]); [exact prime_199|apply Forall_nil]. Qed.
Lemma prime_6277101735386680763835789423176059013767194773182842284081 : prime 6277101735386680763835789423176059013767194773182842284081.
Proof. apply (check_pock_ok _ 2 [(9564682313913860059195669, 1); (2389, 1); (5, 1)]); [vm_compute; reflexivity|].
  repeat (apply Forall_cons; [cbn [fst]|]); [exact prime_9564682313913860059195669|exact prime_2389|exact prime_5|apply Forall_nil]. Qed.
(** curves.py: group order of the 192-bit curve *)
Lemma prime_n192 : prime 0xffffffffffffffffffffffff99def836146bc9b1b4d22831. Proof. exact prime_6277101735386680763835789423176059013767194773182842284081. Qed.
Lemma prime_2 : prime 2. Proof. apply small_prime_ok. vm_compute. reflexivity. Qed.
Lemma prime_65537 : prime 65537.
Proof. apply (check_pock_ok _ 3 [(2, 9)]); [vm_compute; reflexivity|].
  repeat (apply Forall_cons; [cbn [fst]|]); [exact prime_2|apply Forall_nil]. Qed.
Lemma prime_641 : prime 641. Proof. apply small_prime_ok. vm_compute. reflexivity. Qed.
Lemma prime_257 : prime 257. Proof. apply small_prime_ok. vm_compute. reflexivity. Qed.
Lemma prime_17 : prime 17. Proof. apply small_prime_ok. vm_compute. reflexivity. Qed.
Lemma prime_3 : prime 3. Proof. apply small_prime_ok. vm_compute. reflexivity. Qed.
Lemma prime_26959946667150639794667015087019630673557916260026308143510066298881 : prime 26959946667150639794667015087019630673557916260026308143510066298881.
Proof. apply (check_pock_ok _ 22 [(65537, 1); (641, 1); (257, 1); (17, 1); (5, 1); (3, 1); (2, 71)]); [vm_compute; reflexivity|].
  repeat (apply Forall_cons; [cbn [fst]|]); [exact prime_65537|exact prime_641|exact prime_257|exact prime_17|exact prime_5|exact prime_3|exact prime_2|apply Forall_nil]. Qed.
(** curves.py: field prime of the 224-bit curve *)
Lemma prime_p224 : prime 0xffffffffffffffffffffffffffffffff000000000000000000000001. Proof. exact prime_26959946667150639794667015087019630673557916260026308143510066298881. Qed.
Lemma prime_101 : prime 101. Proof. apply small_prime_ok. vm_compute. reflexivity. Qed.
Lemma prime_10909 : prime 10909.
Proof. apply (check_pock_ok _ 2 [(101, 1); (3, 1)]); [vm_compute; reflexivity|].
  repeat (apply Forall_cons; [cbn [fst]|]); [exact prime_101|exact prime_3|apply Forall_nil]. Qed.
Lemma prime_11105363 : prime 11105363.
Proof. apply (check_pock_ok _ 2 [(10909, 1)]); [vm_compute; reflexivity|].
  repeat (apply Forall_cons; [cbn [fst]|]); [exact prime_10909|apply Forall_nil]. Qed.
Lemma prime_821796863 : prime 821796863.
Proof. apply (check_pock_ok _ 2 [(11105363, 1)]); [vm_compute; reflexivity|].
  repeat (apply Forall_cons; [cbn [fst]|]); [exact prime_11105363|apply Forall_nil]. Qed.
Lemma prime_432621809776543 : prime 432621809776543.
Proof. apply (check_pock_ok _ 2 [(821796863, 1)]); [vm_compute; reflexivity|].
  repeat (apply Forall_cons; [cbn [fst]|]); [exact prime_821796863|apply Forall_nil]. Qed.
Lemma prime_136401162692544977256234449 : prime 136401162692544977256234449.
Proof. apply (check_pock_ok _ 2 [(432621809776543, 1)]); [vm_compute; reflexivity|].
  repeat (apply Forall_cons; [cbn [fst]|]); [exact prime_432621809776543|apply Forall_nil]. Qed.
Lemma prime_34646440928557194402992574983797 : prime 34646440928557194402992574983797.
Proof. apply (check_pock_ok _ 2 [(136401162692544977256234449, 1)]); [vm_compute; reflexivity|].
  repeat (apply Forall_cons; [cbn [fst]|]); [exact prime_136401162692544977256234449|apply Forall_nil]. Qed.
Lemma prime_375503554633724504423937478103159147573209 : prime 375503554633724504423937478103159147573209.
Proof. apply (check_pock_ok _ 2 [(34646440928557194402992574983797, 1)]); [vm_compute; reflexivity|].
  repeat (apply Forall_cons; [cbn [fst]|]); [exact prime_34646440928557194402992574983797|apply Forall_nil]. Qed.
Lemma prime_50520606258875818707470860153287666700917696099933389351507 : prime 50520606258875818707470860153287666700917696099933389351507.
Proof. apply (check_pock_ok _ 2 [(375503554633724504423937478103159147573209, 1)]); [vm_compute; reflexivity|].
  repeat (apply Forall_cons; [cbn [fst]|]); [exact prime_375503554633724504423937478103159147573209|apply Forall_nil]. Qed.
Lemma prime_26959946667150639794667015087019625940457807714424391721682722368061 : prime 26959946667150639794667015087019625940457807714424391721682722368061.
Proof. apply (check_pock_ok _ 2 [(50520606258875818707470860153287666700917696099933389351507, 1)]); [vm_compute; reflexivity|].
  repeat (apply Forall_cons; [cbn [fst]|]); [exact prime_50520606258875818707470860153287666700917696099933389351507|apply Forall_nil]. Qed.
(** curves.py: group order of the 224-bit curve *)
Lemma prime_n224 : prime 0xffffffffffffffffffffffffffff16a2e0b8f03e13dd29455c5c2a3d. Proof. exact prime_26959946667150639794667015087019625940457807714424391721682722368061. Qed.
Lemma prime_919 : prime 919. Proof. apply small_prime_ok. vm_compute. reflexivity. Qed.
Lemma prime_3677 : prime 3677.
Proof. apply (check_pock_ok _ 2 [(919, 1)]); [vm_compute; reflexivity|].
  repeat (apply Forall_cons; [cbn [fst]|]); [exact prime_919|apply Forall_nil]. Qed.
Lemma prime_197 : prime 197. Proof. apply small_prime_ok. vm_compute. reflexivity. Qed.
Lemma prime_66417393611 : prime 66417393611.
Proof. apply (check_pock_ok _ 2 [(3677, 1); (197, 1)]); [vm_compute; reflexivity|].
  repeat (apply Forall_cons; [cbn [fst]|]); [exact prime_3677|exact prime_197|apply Forall_nil]. Qed.
Lemma prime_11290956913871 : prime 11290956913871.
Proof. apply (check_pock_ok _ 2 [(66417393611, 1)]); [vm_compute; reflexivity|].
  repeat (apply Forall_cons; [cbn [fst]|]); [exact prime_66417393611|apply Forall_nil]. Qed.
Lemma prime_157 : prime 157. Proof. apply small_prime_ok. vm_compute. reflexivity. Qed.
Lemma prime_3769 : prime 3769.
Proof. apply (check_pock_ok _ 2 [(157, 1)]); [vm_compute; reflexivity|].
  repeat (apply Forall_cons; [cbn [fst]|]); [exact prime_157|apply Forall_nil]. Qed.
Lemma prime_107 : prime 107. Proof. apply small_prime_ok. vm_compute. reflexivity. Qed.
Lemma prime_204061199 : prime 204061199.
Proof. apply (check_pock_ok _ 2 [(3769, 1); (107, 1)]); [vm_compute; reflexivity|].
  repeat (apply Forall_cons; [cbn [fst]|]); [exact prime_3769|exact prime_107|apply Forall_nil]. Qed.
Lemma prime_34282281433 : prime 34282281433.
Proof. apply (check_pock_ok _ 2 [(204061199, 1)]); [vm_compute; reflexivity|].
  repeat (apply Forall_cons; [cbn [fst]|]); [exact prime_204061199|apply Forall_nil]. Qed.
Lemma prime_774023187263532362759620327192479577272145303 : prime 774023187263532362759620327192479577272145303.
Proof. apply (check_pock_ok _ 2 [(11290956913871, 1); (34282281433, 1)]); [vm_compute; reflexivity|].
  repeat (apply Forall_cons; [cbn [fst]|]); [exact prime_11290956913871|exact prime_34282281433|apply Forall_nil]. Qed.
Lemma prime_835945042244614951780389953367877943453916927241 : prime 835945042244614951780389953367877943453916927241.
Proof. apply (check_pock_ok _ 2 [(774023187263532362759620327192479577272145303, 1)]); [vm_compute; reflexivity|].
  repeat (apply Forall_cons; [cbn [fst]|]); [exact prime_774023187263532362759620327192479577272145303|apply Forall_nil]. Qed.
Lemma prime_115792089210356248762697446949407573530086143415290314195533631308867097853951 : prime 115792089210356248762697446949407573530086143415290314195533631308867097853951.
Proof. apply (check_pock_ok _ 2 [(835945042244614951780389953367877943453916927241, 1)]); [vm_compute; reflexivity|].
  repeat (apply Forall_cons; [cbn [fst]|]); [exact prime_835945042244614951780389953367877943453916927241|apply Forall_nil]. Qed.
(** curves.py: field prime of the 256-bit curve *)
Lemma prime_p256 : prime 0xffffffff00000001000000000000000000000000ffffffffffffffffffffffff. Proof. exact prime_115792089210356248762697446949407573530086143415290314195533631308867097853951. Qed.
Lemma prime_337 : prime 337. Proof. apply small_prime_ok. vm_compute. reflexivity. Qed.
Lemma prime_104471 : prime 104471.
Proof. apply (check_pock_ok _ 2 [(337, 1)]); [vm_compute; reflexivity|].
  repeat (apply Forall_cons; [cbn [fst]|]); [exact prime_337|apply Forall_nil]. Qed.
Lemma prime_3969899 : prime 3969899.
Proof. apply (check_pock_ok _ 2 [(104471, 1)]); [vm_compute; reflexivity|].
  repeat (apply Forall_cons; [cbn [fst]|]); [exact prime_104471|apply Forall_nil]. Qed.
Lemma prime_1002328039319 : prime 1002328039319.
Proof. apply (check_pock_ok _ 2 [(3969899, 1)]); [vm_compute; reflexivity|].
  repeat (apply Forall_cons; [cbn [fst]|]); [exact prime_3969899|apply Forall_nil]. Qed.
Lemma prime_311 : prime 311. Proof. apply small_prime_ok. vm_compute. reflexivity. Qed.
Lemma prime_29 : prime 29. Proof. apply small_prime_ok. vm_compute. reflexivity. Qed.
Lemma prime_311245691 : prime 311245691.
Proof. apply (check_pock_ok _ 2 [(311, 1); (29, 2)]); [vm_compute; reflexivity|].
  repeat (apply Forall_cons; [cbn [fst]|]); [exact prime_311|exact prime_29|apply Forall_nil]. Qed.
Lemma prime_622491383 : prime 622491383.
Proof. apply (check_pock_ok _ 2 [(311245691, 1)]); [vm_compute; reflexivity|].
  repeat (apply Forall_cons; [cbn [fst]|]); [exact prime_311245691|apply Forall_nil]. Qed.
Lemma prime_1201 : prime 1201.
Proof. apply (check_pock_ok _ 2 [(5, 2); (3, 1)]); [vm_compute; reflexivity|].
  repeat (apply Forall_cons; [cbn [fst]|]); [exact prime_5|exact prime_3|apply Forall_nil]. Qed.
Lemma prime_9350987 : prime 9350987.
Proof. apply (check_pock_ok _ 2 [(1201, 1); (229, 1)]); [vm_compute; reflexivity|].
  repeat (apply Forall_cons; [cbn [fst]|]); [exact prime_1201|exact prime_229|apply Forall_nil]. Qed.
Lemma prime_187019741 : prime 187019741.
Proof. apply (check_pock_ok _ 2 [(9350987, 1)]); [vm_compute; reflexivity|].
  repeat (apply Forall_cons; [cbn [fst]|]); [exact prime_9350987|apply Forall_nil]. Qed.
Lemma prime_43 : prime 43. Proof. apply small_prime_ok. vm_compute. reflexivity. Qed.
Lemma prime_37 : prime 37. Proof. apply small_prime_ok. vm_compute. reflexivity. Qed.
Lemma prime_9547 : prime 9547.
Proof. apply (check_pock_ok _ 2 [(43, 1); (37, 1)]); [vm_compute; reflexivity|].
  repeat (apply Forall_cons; [cbn [fst]|]); [exact prime_43|exact prime_37|apply Forall_nil]. Qed.
Lemma prime_38189 : prime 38189.
Proof. apply (check_pock_ok _ 2 [(9547, 1)]); [vm_compute; reflexivity|].
  repeat (apply Forall_cons; [cbn [fst]|]); [exact prime_9547|apply Forall_nil]. Qed.
Lemma prime_727 : prime 727. Proof. apply small_prime_ok. vm_compute. reflexivity. Qed.
Lemma prime_17449 : prime 17449.
Proof. apply (check_pock_ok _ 2 [(727, 1)]); [vm_compute; reflexivity|].
  repeat (apply Forall_cons; [cbn [fst]|]); [exact prime_727|apply Forall_nil]. Qed.
Lemma prime_131 : prime 131. Proof. apply small_prime_ok. vm_compute. reflexivity. Qed.
Lemma prime_3407 : prime 3407.
Proof. apply (check_pock_ok _ 2 [(131, 1)]); [vm_compute; reflexivity|].
  repeat (apply Forall_cons; [cbn [fst]|]); [exact prime_131|apply Forall_nil]. Qed.
Lemma prime_115792089210356248762697446949407573529996955224135760342422259061068512044369 : prime 115792089210356248762697446949407573529996955224135760342422259061068512044369.
Proof. apply (check_pock_ok _ 2 [(1002328039319, 1); (622491383, 1); (187019741, 1); (38189, 1); (17449, 1); (3407, 1)]); [vm_compute; reflexivity|].
  repeat (apply Forall_cons; [cbn [fst]|]); [exact prime_1002328039319|exact prime_622491383|exact prime_187019741|exact prime_38189|exact prime_17449|exact prime_3407|apply Forall_nil]. Qed.
(** curves.py: group order of the 256-bit curve *)
Lemma prime_n256 : prime 0xffffffff00000000ffffffffffffffffbce6faada7179e84f3b9cac2fc632551. Proof. exact prime_115792089210356248762697446949407573529996955224135760342422259061068512044369. Qed.
Lemma prime_211 : prime 211. Proof. apply small_prime_ok. vm_compute. reflexivity. Qed.
Lemma prime_105957871 : prime 105957871.
Proof. apply (check_pock_ok _ 2 [(881, 1); (211, 1)]); [vm_compute; reflexivity|].
  repeat (apply Forall_cons; [cbn [fst]|]); [exact prime_881|exact prime_211|apply Forall_nil]. Qed.
Lemma prime_181 : prime 181. Proof. apply small_prime_ok. vm_compute. reflexivity. Qed.
Lemma prime_529709925838459440593 : prime 529709925838459440593.
Proof. apply (check_pock_ok _ 2 [(105957871, 1); (181, 1); (7, 1)]); [vm_compute; reflexivity|].
  repeat (apply Forall_cons; [cbn [fst]|]); [exact prime_105957871|exact prime_181|exact prime_7|apply Forall_nil]. Qed.
Lemma prime_661 : prime 661. Proof. apply small_prime_ok. vm_compute. reflexivity. Qed.
Lemma prime_599 : prime 599. Proof. apply small_prime_ok. vm_compute. reflexivity. Qed.
Lemma prime_513928823 : prime 513928823.
Proof. apply (check_pock_ok _ 2 [(661, 1); (599, 1)]); [vm_compute; reflexivity|].
  repeat (apply Forall_cons; [cbn [fst]|]); [exact prime_661|exact prime_599|apply Forall_nil]. Qed.
Lemma prime_53448597593 : prime 53448597593.
Proof. apply (check_pock_ok _ 2 [(513928823, 1)]); [vm_compute; reflexivity|].
  repeat (apply Forall_cons; [cbn [fst]|]); [exact prime_513928823|apply Forall_nil]. Qed.
Lemma prime_1357291859799823621 : prime 1357291859799823621.
Proof. apply (check_pock_ok _ 2 [(53448597593, 1)]); [vm_compute; reflexivity|].
  repeat (apply Forall_cons; [cbn [fst]|]); [exact prime_53448597593|apply Forall_nil]. Qed.
Lemma prime_271 : prime 271. Proof. apply small_prime_ok. vm_compute. reflexivity. Qed.
Lemma prime_3253 : prime 3253.
Proof. apply (check_pock_ok _ 2 [(271, 1)]); [vm_compute; reflexivity|].
  repeat (apply Forall_cons; [cbn [fst]|]); [exact prime_271|apply Forall_nil]. Qed.
Lemma prime_312289 : prime 312289.
Proof. apply (check_pock_ok _ 2 [(3253, 1)]); [vm_compute; reflexivity|].
  repeat (apply Forall_cons; [cbn [fst]|]); [exact prime_3253|apply Forall_nil]. Qed.
Lemma prime_38557 : prime 38557.
Proof. apply (check_pock_ok _ 2 [(17, 1); (7, 1); (3, 1)]); [vm_compute; reflexivity|].
  repeat (apply Forall_cons; [cbn [fst]|]); [exact prime_17|exact prime_7|exact prime_3|apply Forall_nil]. Qed.
Lemma prime_233 : prime 233. Proof. apply small_prime_ok. vm_compute. reflexivity. Qed.
Lemma prime_8389 : prime 8389.
Proof. apply (check_pock_ok _ 2 [(233, 1)]); [vm_compute; reflexivity|].
  repeat (apply Forall_cons; [cbn [fst]|]); [exact prime_233|apply Forall_nil]. Qed.
Lemma prime_19173790298027098165721053155794528970226934547887232785722672956982046098136719667167519737147526097 : prime 19173790298027098165721053155794528970226934547887232785722672956982046098136719667167519737147526097.
Proof. apply (check_pock_ok _ 2 [(529709925838459440593, 1); (1357291859799823621, 1); (312289, 1); (38557, 1); (8389, 1)]); [vm_compute; reflexivity|].
  repeat (apply Forall_cons; [cbn [fst]|]); [exact prime_529709925838459440593|exact prime_1357291859799823621|exact prime_312289|exact prime_38557|exact prime_8389|apply Forall_nil]. Qed.
Lemma prime_39402006196394479212279040100143613805079739270465446667948293404245721771496870329047266088258938001861606973112319 : prime 39402006196394479212279040100143613805079739270465446667948293404245721771496870329047266088258938001861606973112319.
Proof. apply (check_pock_ok _ 2 [(19173790298027098165721053155794528970226934547887232785722672956982046098136719667167519737147526097, 1)]); [vm_compute; reflexivity|].
  repeat (apply Forall_cons; [cbn [fst]|]); [exact prime_19173790298027098165721053155794528970226934547887232785722672956982046098136719667167519737147526097|apply Forall_nil]. Qed.
(** curves.py: field prime of the 384-bit curve *)
Lemma prime_p384 : prime 0xfffffffffffffffffffffffffffffffffffffffffffffffffffffffffffffffeffffffff0000000000000000ffffffff. Proof. exact prime_39402006196394479212279040100143613805079739270465446667948293404245721771496870329047266088258938001861606973112319. Qed.
Lemma prime_9863677 : prime 9863677.
Proof. apply (check_pock_ok _ 2 [(881, 1); (311, 1)]); [vm_compute; reflexivity|].
  repeat (apply Forall_cons; [cbn [fst]|]); [exact prime_881|exact prime_311|apply Forall_nil]. Qed.
Lemma prime_37344768852931 : prime 37344768852931.
Proof. apply (check_pock_ok _ 2 [(9863677, 1)]); [vm_compute; reflexivity|].
  repeat (apply Forall_cons; [cbn [fst]|]); [exact prime_9863677|apply Forall_nil]. Qed.
Lemma prime_55942463741690639 : prime 55942463741690639.
Proof. apply (check_pock_ok _ 2 [(37344768852931, 1)]); [vm_compute; reflexivity|].
  repeat (apply Forall_cons; [cbn [fst]|]); [exact prime_37344768852931|apply Forall_nil]. Qed.
Lemma prime_79 : prime 79. Proof. apply small_prime_ok. vm_compute. reflexivity. Qed.
Lemma prime_37447 : prime 37447.
Proof. apply (check_pock_ok _ 2 [(79, 2)]); [vm_compute; reflexivity|].
  repeat (apply Forall_cons; [cbn [fst]|]); [exact prime_79|apply Forall_nil]. Qed.
Lemma prime_8463023 : prime 8463023.
Proof. apply (check_pock_ok _ 2 [(37447, 1)]); [vm_compute; reflexivity|].
  repeat (apply Forall_cons; [cbn [fst]|]); [exact prime_37447|apply Forall_nil]. Qed.
Lemma prime_13 : prime 13. Proof. apply small_prime_ok. vm_compute. reflexivity. Qed.
Lemma prime_248431 : prime 248431.
Proof. apply (check_pock_ok _ 2 [(13, 2); (7, 1)]); [vm_compute; reflexivity|].
  repeat (apply Forall_cons; [cbn [fst]|]); [exact prime_13|exact prime_7|apply Forall_nil]. Qed.
Lemma prime_251 : prime 251. Proof. apply small_prime_ok. vm_compute. reflexivity. Qed.
Lemma prime_1059392654943455286185473617842338478315215895509773412096307 : prime 1059392654943455286185473617842338478315215895509773412096307.
Proof. apply (check_pock_ok _ 2 [(55942463741690639, 1); (8463023, 1); (248431, 1); (251, 1)]); [vm_compute; reflexivity|].
  repeat (apply Forall_cons; [cbn [fst]|]); [exact prime_55942463741690639|exact prime_8463023|exact prime_248431|exact prime_251|apply Forall_nil]. Qed.
Lemma prime_3055465788140352002733946906144561090641249606160407884365391979704929268480326390471 : prime 3055465788140352002733946906144561090641249606160407884365391979704929268480326390471.
Proof. apply (check_pock_ok _ 2 [(1059392654943455286185473617842338478315215895509773412096307, 1)]); [vm_compute; reflexivity|].
  repeat (apply Forall_cons; [cbn [fst]|]); [exact prime_1059392654943455286185473617842338478315215895509773412096307|apply Forall_nil]. Qed.
Lemma prime_39402006196394479212279040100143613805079739270465446667946905279627659399113263569398956308152294913554433653942643 : prime 39402006196394479212279040100143613805079739270465446667946905279627659399113263569398956308152294913554433653942643.
Proof. apply (check_pock_ok _ 2 [(3055465788140352002733946906144561090641249606160407884365391979704929268480326390471, 1)]); [vm_compute; reflexivity|].
  repeat (apply Forall_cons; [cbn [fst]|]); [exact prime_3055465788140352002733946906144561090641249606160407884365391979704929268480326390471|apply Forall_nil]. Qed.
(** curves.py: group order of the 384-bit curve *)
Lemma prime_n384 : prime 0xffffffffffffffffffffffffffffffffffffffffffffffffc7634d81f4372ddf581a0db248b0a77aecec196accc52973. Proof. exact prime_39402006196394479212279040100143613805079739270465446667946905279627659399113263569398956308152294913554433653942643. Qed.
Lemma prime_223 : prime 223. Proof. apply small_prime_ok. vm_compute. reflexivity. Qed.
Lemma prime_151 : prime 151. Proof. apply small_prime_ok. vm_compute. reflexivity. Qed.
Lemma prime_8620289 : prime 8620289.
Proof. apply (check_pock_ok _ 2 [(223, 1); (151, 1)]); [vm_compute; reflexivity|].
  repeat (apply Forall_cons; [cbn [fst]|]); [exact prime_223|exact prime_151|apply Forall_nil]. Qed.
Lemma prime_2534364967 : prime 2534364967.
Proof. apply (check_pock_ok _ 2 [(8620289, 1)]); [vm_compute; reflexivity|].
  repeat (apply Forall_cons; [cbn [fst]|]); [exact prime_8620289|apply Forall_nil]. Qed.
Lemma prime_145295143558111 : prime 145295143558111.
Proof. apply (check_pock_ok _ 3 [(2534364967, 1)]); [vm_compute; reflexivity|].
  repeat (apply Forall_cons; [cbn [fst]|]); [exact prime_2534364967|apply Forall_nil]. Qed.
Lemma prime_103 : prime 103. Proof. apply small_prime_ok. vm_compute. reflexivity. Qed.
Lemma prime_1237 : prime 1237.
Proof. apply (check_pock_ok _ 2 [(103, 1)]); [vm_compute; reflexivity|].
  repeat (apply Forall_cons; [cbn [fst]|]); [exact prime_103|apply Forall_nil]. Qed.
Lemma prime_49481 : prime 49481.
Proof. apply (check_pock_ok _ 2 [(1237, 1)]); [vm_compute; reflexivity|].
  repeat (apply Forall_cons; [cbn [fst]|]); [exact prime_1237|apply Forall_nil]. Qed.
Lemma prime_308761441 : prime 308761441.
Proof. apply (check_pock_ok _ 3 [(49481, 1)]); [vm_compute; reflexivity|].
  repeat (apply Forall_cons; [cbn [fst]|]); [exact prime_49481|apply Forall_nil]. Qed.
Lemma prime_317 : prime 317. Proof. apply small_prime_ok. vm_compute. reflexivity. Qed.
Lemma prime_7623851 : prime 7623851.
Proof. apply (check_pock_ok _ 3 [(317, 1); (37, 1)]); [vm_compute; reflexivity|].
  repeat (apply Forall_cons; [cbn [fst]|]); [exact prime_317|exact prime_37|apply Forall_nil]. Qed.
Lemma prime_11 : prime 11. Proof. apply small_prime_ok. vm_compute. reflexivity. Qed.
Lemma prime_858001 : prime 858001.
Proof. apply (check_pock_ok _ 3 [(13, 1); (11, 1); (5, 2)]); [vm_compute; reflexivity|].
  repeat (apply Forall_cons; [cbn [fst]|]); [exact prime_13|exact prime_11|exact prime_5|apply Forall_nil]. Qed.
Lemma prime_1051 : prime 1051.
Proof. apply (check_pock_ok _ 2 [(7, 1); (5, 1)]); [vm_compute; reflexivity|].
  repeat (apply Forall_cons; [cbn [fst]|]); [exact prime_7|exact prime_5|apply Forall_nil]. Qed.
Lemma prime_409891 : prime 409891.
Proof. apply (check_pock_ok _ 3 [(1051, 1)]); [vm_compute; reflexivity|].
  repeat (apply Forall_cons; [cbn [fst]|]); [exact prime_1051|apply Forall_nil]. Qed.
Lemma prime_61681 : prime 61681.
Proof. apply (check_pock_ok _ 3 [(257, 1)]); [vm_compute; reflexivity|].
  repeat (apply Forall_cons; [cbn [fst]|]); [exact prime_257|apply Forall_nil]. Qed.
Lemma prime_51481 : prime 51481.
Proof. apply (check_pock_ok _ 3 [(13, 1); (11, 1); (5, 1)]); [vm_compute; reflexivity|].
  repeat (apply Forall_cons; [cbn [fst]|]); [exact prime_13|exact prime_11|exact prime_5|apply Forall_nil]. Qed.
Lemma prime_41 : prime 41. Proof. apply small_prime_ok. vm_compute. reflexivity. Qed.
Lemma prime_42641 : prime 42641.
Proof. apply (check_pock_ok _ 3 [(41, 1); (13, 1)]); [vm_compute; reflexivity|].
  repeat (apply Forall_cons; [cbn [fst]|]); [exact prime_41|exact prime_13|apply Forall_nil]. Qed.
Lemma prime_8191 : prime 8191.
Proof. apply (check_pock_ok _ 3 [(13, 1); (7, 1)]); [vm_compute; reflexivity|].
  repeat (apply Forall_cons; [cbn [fst]|]); [exact prime_13|exact prime_7|apply Forall_nil]. Qed.
Lemma prime_2731 : prime 2731.
Proof. apply (check_pock_ok _ 3 [(13, 1); (7, 1)]); [vm_compute; reflexivity|].
  repeat (apply Forall_cons; [cbn [fst]|]); [exact prime_13|exact prime_7|apply Forall_nil]. Qed.
Lemma prime_1613 : prime 1613.
Proof. apply (check_pock_ok _ 3 [(31, 1); (13, 1)]); [vm_compute; reflexivity|].
  repeat (apply Forall_cons; [cbn [fst]|]); [exact prime_31|exact prime_13|apply Forall_nil]. Qed.
Lemma prime_521 : prime 521. Proof. apply small_prime_ok. vm_compute. reflexivity. Qed.
Lemma prime_53 : prime 53. Proof. apply small_prime_ok. vm_compute. reflexivity. Qed.
Lemma prime_6864797660130609714981900799081393217269435300143305409394463459185543183397656052122559640661454554977296311391480858037121987999716643812574028291115057151 : prime 6864797660130609714981900799081393217269435300143305409394463459185543183397656052122559640661454554977296311391480858037121987999716643812574028291115057151.
Proof. apply (check_pock_ok _ 3 [(145295143558111, 1); (308761441, 1); (7623851, 1); (858001, 1); (409891, 1); (61681, 1); (51481, 1); (42641, 1); (8191, 1); (2731, 1); (1613, 1); (521, 1); (157, 1); (131, 1); (53, 1); (41, 1); (31, 1); (17, 1)]); [vm_compute; reflexivity|].
  repeat (apply Forall_cons; [cbn [fst]|]); [exact prime_145295143558111|exact prime_308761441|exact prime_7623851|exact prime_858001|exact prime_409891|exact prime_61681|exact prime_51481|exact prime_42641|exact prime_8191|exact prime_2731|exact prime_1613|exact prime_521|exact prime_157|exact prime_131|exact prime_53|exact prime_41|exact prime_31|exact prime_17|apply Forall_nil]. Qed.
(** curves.py: field prime of the 521-bit curve *)
Lemma prime_p521 : prime 0x1ffffffffffffffffffffffffffffffffffffffffffffffffffffffffffffffffffffffffffffffffffffffffffffffffffffffffffffffffffffffffffffffffff. Proof. exact prime_6864797660130609714981900799081393217269435300143305409394463459185543183397656052122559640661454554977296311391480858037121987999716643812574028291115057151. Qed.
Lemma prime_929 : prime 929. Proof. apply small_prime_ok. vm_compute. reflexivity. Qed.
Lemma prime_118913 : prime 118913.
Proof. apply (check_pock_ok _ 2 [(929, 1)]); [vm_compute; reflexivity|].
  repeat (apply Forall_cons; [cbn [fst]|]); [exact prime_929|apply Forall_nil]. Qed.
Lemma prime_11923882163 : prime 11923882163.
Proof. apply (check_pock_ok _ 2 [(118913, 1)]); [vm_compute; reflexivity|].
  repeat (apply Forall_cons; [cbn [fst]|]); [exact prime_118913|apply Forall_nil]. Qed.
Lemma prime_2742492897491 : prime 2742492897491.
Proof. apply (check_pock_ok _ 2 [(11923882163, 1)]); [vm_compute; reflexivity|].
  repeat (apply Forall_cons; [cbn [fst]|]); [exact prime_11923882163|apply Forall_nil]. Qed.
Lemma prime_179 : prime 179. Proof. apply small_prime_ok. vm_compute. reflexivity. Qed.
Lemma prime_89 : prime 89. Proof. apply small_prime_ok. vm_compute. reflexivity. Qed.
Lemma prime_3154339 : prime 3154339.
Proof. apply (check_pock_ok _ 2 [(179, 1); (89, 1)]); [vm_compute; reflexivity|].
  repeat (apply Forall_cons; [cbn [fst]|]); [exact prime_179|exact prime_89|apply Forall_nil]. Qed.
Lemma prime_12617357 : prime 12617357.
Proof. apply (check_pock_ok _ 2 [(3154339, 1)]); [vm_compute; reflexivity|].
  repeat (apply Forall_cons; [cbn [fst]|]); [exact prime_3154339|apply Forall_nil]. Qed.
Lemma prime_1117814976287443177659483657095414003 : prime 1117814976287443177659483657095414003.
Proof. apply (check_pock_ok _ 2 [(2742492897491, 1); (12617357, 1)]); [vm_compute; reflexivity|].
  repeat (apply Forall_cons; [cbn [fst]|]); [exact prime_2742492897491|exact prime_12617357|apply Forall_nil]. Qed.
Lemma prime_9894712450279245035225391287211308533561263802001480744023 : prime 9894712450279245035225391287211308533561263802001480744023.
Proof. apply (check_pock_ok _ 2 [(1117814976287443177659483657095414003, 1)]); [vm_compute; reflexivity|].
  repeat (apply Forall_cons; [cbn [fst]|]); [exact prime_1117814976287443177659483657095414003|apply Forall_nil]. Qed.
Lemma prime_2374730988067018808454093908930714048054703312480355378565521 : prime 2374730988067018808454093908930714048054703312480355378565521.
Proof. apply (check_pock_ok _ 2 [(9894712450279245035225391287211308533561263802001480744023, 1)]); [vm_compute; reflexivity|].
  repeat (apply Forall_cons; [cbn [fst]|]); [exact prime_9894712450279245035225391287211308533561263802001480744023|apply Forall_nil]. Qed.
Lemma prime_51804625509771251553534546678595322522265033968214829542043448183730599 : prime 51804625509771251553534546678595322522265033968214829542043448183730599.
Proof. apply (check_pock_ok _ 2 [(2374730988067018808454093908930714048054703312480355378565521, 1)]); [vm_compute; reflexivity|].
  repeat (apply Forall_cons; [cbn [fst]|]); [exact prime_2374730988067018808454093908930714048054703312480355378565521|apply Forall_nil]. Qed.
Lemma prime_3636410625392624440351547907325502812950802686368714273274221490761556277859337865760708490235892541081304511 : prime 3636410625392624440351547907325502812950802686368714273274221490761556277859337865760708490235892541081304511.
Proof. apply (check_morrison_ok _ 51804625509771251553534546678595322522265033968214829542043448183730599 11 727282125078524888070309581465100562590160537273742854654844298152311255571867573152141698047178508216260901 727282125078524888070309581465100562590160537273742854654844298152311255571867573152141698047178508216260902); [vm_compute; reflexivity|exact prime_51804625509771251553534546678595322522265033968214829542043448183730599]. Qed.
Lemma prime_3615194794881930010216942559103847593050265703173292383701371712350878926821661243755933835426896058418509759880171943 : prime 3615194794881930010216942559103847593050265703173292383701371712350878926821661243755933835426896058418509759880171943.
Proof. apply (check_pock_ok _ 2 [(3636410625392624440351547907325502812950802686368714273274221490761556277859337865760708490235892541081304511, 1)]); [vm_compute; reflexivity|].
  repeat (apply Forall_cons; [cbn [fst]|]); [exact prime_3636410625392624440351547907325502812950802686368714273274221490761556277859337865760708490235892541081304511|apply Forall_nil]. Qed.
Lemma prime_6864797660130609714981900799081393217269435300143305409394463459185543183397655394245057746333217197532963996371363321113864768612440380340372808892707005449 : prime 6864797660130609714981900799081393217269435300143305409394463459185543183397655394245057746333217197532963996371363321113864768612440380340372808892707005449.
Proof. apply (check_pock_ok _ 2 [(3615194794881930010216942559103847593050265703173292383701371712350878926821661243755933835426896058418509759880171943, 1)]); [vm_compute; reflexivity|].
  repeat (apply Forall_cons; [cbn [fst]|]); [exact prime_3615194794881930010216942559103847593050265703173292383701371712350878926821661243755933835426896058418509759880171943|apply Forall_nil]. Qed.
(** curves.py: group order of the 521-bit curve *)
Lemma prime_n521 : prime 0x1fffffffffffffffffffffffffffffffffffffffffffffffffffffffffffffffffa51868783bf2f966b7fcc0148f709a5d03bb5c9b8899c47aebb6fb71e91386409. Proof. exact prime_6864797660130609714981900799081393217269435300143305409394463459185543183397655394245057746333217197532963996371363321113864768612440380340372808892707005449. Qed.
