(** * C14 with one key; C273: the key sizes of curves.py *)
From Coq Require Import ZArith List Bool Lia.
From Verif Require Import Base BaseProofs Codec Json Jwt Elliptic Ecc Prims Inst Jwk JwkEx Jws JwsProofs2 JwsProofs3 JwsProofs4 JwsEx OneKey Sizes.
Import ListNotations.
Open Scope Z_scope.

(** C14 with one key: verify_compact accepts what sign_compact made exactly if the key has a kid or the protected header has none. *)
Theorem C14_one_key : forall P E s k protected s' tok a g t,
  sign_compact P E s (Some [k]) protected = (s', Ok tok) -> chosen s (Some [k]) = VStr a -> dget SIGNERS a = Some g -> alg2keytype (VStr a) = Ok (Some t) ->
  octets_wf (s_msg s) -> json_header protected s (Some [k]) -> text_cty protected -> works P g k -> (truthy (k_kid k) = true -> exists x, k_kid k = VStr x) ->
  forall v an sigalg token, token = VStr tok \/ token = VBytes tok -> ready v a -> truthy sigalg = false \/ sigalg = VStr a ->
  ((exists m, snd (verify_compact P v token (Some [k]) an sigalg) = Ok (m, Some k)) <-> truthy (k_kid k) = true \/ truthy (kwarg protected (lit "kid") VNone) = false) /\
  (forall e, snd (verify_compact P v token (Some [k]) an sigalg) = Raise e -> e = ENoSuitableSigningKeys).
Proof. exact one_key. Qed.
Print Assumptions C14_one_key.
Example C14_one_key_ex : exists tok tok' : ustr, snd (sign_compact std ex_E ex_jws (Some [ex_key]) [(lit "kid", VStr (lit "1"))]) = Ok tok /\ json_header [(lit "kid", VStr (lit "1"))] ex_jws (Some [ex_key]) /\ truthy (k_kid ex_key) = false /\
  snd (verify_compact std new_jws (VStr tok) (Some [ex_key]) false VNone) = Raise ENoSuitableSigningKeys /\
  snd (sign_compact std ex_E ex_jws (Some [set_kid ex_key (VStr (lit "2"))]) [(lit "kid", VStr (lit "1"))]) = Ok tok' /\
  snd (verify_compact std new_jws (VStr tok') (Some [set_kid ex_key (VStr (lit "2"))]) false VNone) = Ok (VStr (lit "hello"), Some (set_kid ex_key (VStr (lit "2")))).
Proof.
  set (a := snd (sign_compact std ex_E ex_jws (Some [ex_key]) [(lit "kid", VStr (lit "1"))])). vm_compute in a. set (b := snd (sign_compact std ex_E ex_jws (Some [set_kid ex_key (VStr (lit "2"))]) [(lit "kid", VStr (lit "1"))])). vm_compute in b.
  match eval unfold a in a with Ok ?t => exists t end. match eval unfold b in b with Ok ?t => exists t end. subst a b. split; [reflexivity|]. split.
  { split; [vm_compute; reflexivity|]. split; [intros t X; discriminate X|]. intros k [(l & X & I)|[_ X]]; [injection X as <-; destruct I as [<-|[]]; vm_compute; reflexivity|discriminate X]. }
  vm_compute. repeat split.
Qed.

(** C273: the sizes listed are exactly those get_curve knows, and with must_sign exactly those whose order is known *)
Theorem C273_sizes : forall b, (In b (implemented_keys false) <-> exists t, get_curve b = Ok t) /\ (~ In b (implemented_keys false) -> get_curve b = Raise EKeyError) /\
  (In b (implemented_keys true) <-> exists p n a q g, get_curve b = Ok (b, p, Some n, a, q, g)).
Proof.
  intro b. split; [exact (all_sizes b)|]. split; [|exact (sign_sizes b)].
  intro N. destruct (get_curve b) as [t|e] eqn:G; [exfalso; apply N, all_sizes; exists t; exact G|]. unfold get_curve in G. destruct (domains b) as [[[[[? ?] ?] ?] ?]|]; [discriminate G|]. symmetry. exact G.
Qed.
Print Assumptions C273_sizes.
(** each once, five of seven with their order, and they are the sizes of the primes and orders; the base points are on the curves y^2 = x^3 - 3 x - q *)
Theorem C273_lists : implemented_keys false = [192; 224; 256; 384; 521; 128; 160] /\ implemented_keys true = [192; 224; 256; 384; 521].
Proof. vm_compute. split; reflexivity. Qed.
Print Assumptions C273_lists.
Theorem C273_curves : forall b b' p n a q x y, get_curve b = Ok (b', p, n, a, q, (x, y)) ->
  b' = b /\ a = 3 /\ 2 ^ (b - 1) < p < 2 ^ b /\ (p | y ^ 2 - (x ^ 3 - 3 * x - q)) /\ forall m, n = Some m -> 2 ^ (b - 1) < m < 2 ^ b.
Proof.
  intros b b' p n a q x y H. destruct (size_facts _ _ _ _ _ _ _ H) as (A & B & D & Q & F & G). split; [exact A|]. split; [exact B|]. split; [exact D|]. split; [|exact G].
  cbn [element] in F. apply Z.eqb_eq in F. subst a. apply Z.mod_divide; [lia|].
  replace (y ^ 2 - (x ^ 3 - 3 * x - q)) with (y * y - (x * x * x - 3 * x - q)) by ring. rewrite Zminus_mod, F, Z.sub_diag. apply Z.mod_0_l. lia.
Qed.
Print Assumptions C273_curves.
Theorem C273_named : forall name c, by_name name = Ok c -> In (c_bits c) (implemented_keys true).
Proof.
  intros name c H. unfold by_name in H. destruct (zs_eqb name (lit "P-256")); [|destruct (zs_eqb name (lit "P-384")); [|destruct (zs_eqb name (lit "P-521")); [|discriminate H]]];
    vm_compute in H; injection H as <-; vm_compute; tauto.
Qed.
Print Assumptions C273_named.
Example C273_ex : (exists t, get_curve 160 = Ok t) /\ ~ In 160 (implemented_keys true) /\ In 521 (implemented_keys true) /\ get_curve 512 = Raise EKeyError /\ exists c, by_name (lit "P-384") = Ok c /\ c_bits c = 384.
Proof. split; [vm_compute; eexists; reflexivity|]. split; [vm_compute; lia|]. split; [vm_compute; tauto|]. split; [reflexivity|]. eexists. split; vm_compute; reflexivity. Qed.
