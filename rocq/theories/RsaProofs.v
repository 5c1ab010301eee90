(** * The concrete RSA schemes satisfy the laws of [Prims.v] for every well-formed key. *)
From Coq Require Import ZArith Znumtheory Zpow_facts List Bool Lia ZifyBool Btauto.
From Verif Require Import Base BaseProofs Prims Sha Rsa Pock ExtraProofs.
Import ListNotations.
Open Scope Z_scope.
Ltac Zify.zify_post_hook ::= Z.div_mod_to_equations.

(** A key pair: two different primes, exponents inverse modulo p-1 and q-1. *)
Definition rsa_wf (k : rsakey) : Prop := exists p q d, prime p /\ prime q /\ p <> q /\ r_n k = p * q /\
  r_d k = Some d /\ 0 < d /\ 0 < r_e k /\ (r_e k * d) mod (p - 1) = 1 mod (p - 1) /\ (r_e k * d) mod (q - 1) = 1 mod (q - 1).

Lemma pow_exp_mod : forall p a x, prime p -> 0 < x -> x mod (p - 1) = 1 mod (p - 1) -> a ^ x mod p = a mod p.
Proof.
  intros p a x P X E. pose proof (prime_ge_2 p P).
  destruct (Zdivide_dec p a) as [D|D].
  - destruct D as [c ->]. rewrite Z_mod_mult. replace x with (1 + (x - 1)) by lia.
    rewrite Z.pow_add_r, Z.pow_1_r by lia. rewrite (Z.mul_comm c p), <- Z.mul_assoc, Z.mul_comm. apply Z_mod_mult.
  - assert (Q : exists c, 0 <= c /\ x = 1 + (p - 1) * c).
    { exists ((x - 1) / (p - 1)). assert (M : (x - 1) mod (p - 1) = 0) by (rewrite Zminus_mod, E, <- Zminus_mod; reflexivity).
      split. { apply Z.div_pos; lia. } pose proof (Z.div_mod (x - 1) (p - 1) ltac:(lia)). lia. }
    destruct Q as (c & C & ->). rewrite Z.pow_add_r, Z.pow_1_r, Z.pow_mul_r by nia.
    rewrite Zmult_mod, Zpower_mod, fermat by (assumption || lia). rewrite Z.pow_1_l by lia. rewrite Z.mod_1_l, Z.mul_1_r by lia. apply Zmod_mod.
Qed.

Lemma powm_ok : forall x e n, n <> 0 -> powm x e n = x ^ e mod n.
Proof. intros. unfold powm. apply Zpow_mod_correct. assumption. Qed.

Lemma rsa_core : forall k p q d x, prime p -> prime q -> p <> q -> r_n k = p * q -> 0 < d -> 0 < r_e k ->
  (r_e k * d) mod (p - 1) = 1 mod (p - 1) -> (r_e k * d) mod (q - 1) = 1 mod (q - 1) ->
  0 <= x < r_n k -> x ^ (r_e k * d) mod r_n k = x.
Proof.
  intros k p q d x Pp Pq NE N D E Mp Mq X. pose proof (prime_ge_2 p Pp). pose proof (prime_ge_2 q Pq).
  assert (A : forall r, prime r -> (r_e k * d) mod (r - 1) = 1 mod (r - 1) -> (r | x ^ (r_e k * d) - x)).
  { intros r Pr M. pose proof (prime_ge_2 r Pr). apply Z.mod_divide; [lia|]. rewrite Zminus_mod, (pow_exp_mod r) by (assumption || nia).
    rewrite Z.sub_diag. apply Zmod_0_l. }
  assert (RP : rel_prime p q). { apply prime_rel_prime; [assumption|]. intro DV. apply NE. apply prime_div_prime; assumption. }
  pose proof (A p Pp Mp) as [a HA]. pose proof (A q Pq Mq) as HB. rewrite HA in HB. rewrite Z.mul_comm in HB.
  apply Gauss in HB; [|apply rel_prime_sym; exact RP]. destruct HB as [b ->].
  rewrite N. replace (x ^ (r_e k * d)) with (x + b * (p * q)) by lia. rewrite Z_mod_plus_full. apply Z.mod_small. lia.
Qed.

(** encrypt then decrypt, and sign then verify, at the level of numbers *)
Lemma rsa_ops : forall k x, rsa_wf k -> 0 <= x < r_n k ->
  (exists y, rsa_public_op k x = Ok y /\ 0 <= y < r_n k /\ rsa_private_op k y = Ok x) /\
  (exists y, rsa_private_op k x = Ok y /\ 0 <= y < r_n k /\ rsa_public_op k y = Ok x).
Proof.
  intros k x (p & q & d & Pp & Pq & NE & N & D & D0 & E0 & Mp & Mq) X.
  pose proof (prime_ge_2 p Pp). pose proof (prime_ge_2 q Pq).
  assert (NZ : r_n k <> 0) by nia. assert (NP : 0 < r_n k) by nia.
  unfold rsa_public_op, rsa_private_op. rewrite D.
  assert (B : (0 <=? x) && (x <? r_n k) = true) by lia. rewrite B.
  split; (eexists; split; [reflexivity|]); rewrite powm_ok by assumption; (split; [apply Z.mod_pos_bound; assumption|]);
    pose proof (Z.mod_pos_bound (x ^ r_e k) (r_n k) NP); pose proof (Z.mod_pos_bound (x ^ d) (r_n k) NP).
  - assert (B' : (0 <=? x ^ r_e k mod r_n k) && (x ^ r_e k mod r_n k <? r_n k) = true) by lia. rewrite B'. f_equal.
    rewrite powm_ok by assumption. rewrite <- Zpower_mod by lia. rewrite <- Z.pow_mul_r by lia. apply (rsa_core k p q d); assumption.
  - assert (B' : (0 <=? x ^ d mod r_n k) && (x ^ d mod r_n k <? r_n k) = true) by lia. rewrite B'. f_equal.
    rewrite powm_ok by assumption. rewrite <- Zpower_mod by lia. rewrite <- Z.pow_mul_r by lia. rewrite Z.mul_comm. apply (rsa_core k p q d); assumption.
Qed.

(** sizes *)
Lemma wf_n_pos : forall k, rsa_wf k -> 4 <= r_n k.
Proof. intros k (p & q & d & Pp & Pq & NE & N & _). pose proof (prime_ge_2 p Pp). pose proof (prime_ge_2 q Pq). nia. Qed.

Lemma pow256 : forall n, 256 ^ Z.of_nat n = 2 ^ (8 * Z.of_nat n).
Proof. intros. rewrite Z.pow_mul_r by lia. reflexivity. Qed.

Lemma mod_len_bounds : forall k, rsa_wf k -> (1 <= mod_len k)%nat /\ r_n k < 256 ^ Z.of_nat (mod_len k) /\ 256 ^ Z.of_nat (mod_len k - 1) <= r_n k.
Proof.
  intros k W. pose proof (wf_n_pos k W) as N. pose proof (Z.log2_spec (r_n k) ltac:(lia)) as [L1 L2].
  pose proof (Z.log2_nonneg (r_n k)). unfold mod_len, mod_bits. set (l := Z.log2 (r_n k)) in *.
  split; [lia|]. rewrite !pow256. split.
  - eapply Z.lt_le_trans; [exact L2|]. apply Z.pow_le_mono_r; lia.
  - eapply Z.le_trans; [|exact L1]. apply Z.pow_le_mono_r; lia.
Qed.

Lemma be2z_lead0 : forall b, be2z (0 :: b) = be2z b.
Proof. intros. rewrite be2z_cons. lia. Qed.

Lemma em_lt : forall k b, rsa_wf k -> bytes_ok b = true -> S (length b) = mod_len k -> 0 <= be2z (0 :: b) < r_n k.
Proof.
  intros k b W B L. rewrite be2z_lead0. pose proof (be2z_bound b B). destruct (mod_len_bounds k W) as (_ & _ & H1).
  replace (mod_len k - 1)%nat with (length b) in H1 by lia. lia.
Qed.

Lemma z2be_back : forall k x, rsa_wf k -> 0 <= x < r_n k -> be2z (z2be (mod_len k) x) = x.
Proof. intros k x W X. destruct (mod_len_bounds k W) as (_ & H & _). apply be2z_z2be. lia. Qed.

(** octet strings *)
Lemma lxor_byte : forall a b, is_byte a = true -> is_byte b = true -> is_byte (Z.lxor a b) = true.
Proof.
  intros a b A B. apply is_byte_spec in A, B. apply is_byte_spec.
  assert (N : 0 <= Z.lxor a b) by (apply Z.lxor_nonneg; lia). split; [exact N|].
  destruct (Z.eq_dec (Z.lxor a b) 0) as [->|NZ]; [lia|]. change 256 with (2 ^ 8). apply Z.log2_lt_pow2; [lia|].
  eapply Z.le_lt_trans; [apply Z.log2_lxor; lia|]. apply Z.max_lub_lt.
  - destruct (Z.eq_dec a 0) as [->|]; [reflexivity|]. apply Z.log2_lt_pow2; lia.
  - destruct (Z.eq_dec b 0) as [->|]; [reflexivity|]. apply Z.log2_lt_pow2; lia.
Qed.
Lemma sxor_length : forall a b, length (sxor a b) = Nat.min (length a) (length b).
Proof. induction a as [|x a IH]; intros [|y b]; cbn [sxor length Nat.min]; [reflexivity..|]. f_equal. apply IH. Qed.
Lemma sxor_ok : forall a b, bytes_ok a = true -> bytes_ok b = true -> bytes_ok (sxor a b) = true.
Proof.
  induction a as [|x a IH]; intros [|y b] A B; try reflexivity. cbn [sxor]. rewrite bytes_ok_cons in *. apply andb_true_iff in A, B.
  rewrite lxor_byte by tauto. apply IH; tauto.
Qed.
Lemma sxor_inv : forall a b, (length a <= length b)%nat -> sxor (sxor a b) b = a.
Proof.
  induction a as [|x a IH]; intros [|y b] L; cbn [length] in L; try reflexivity; [lia|]. cbn [sxor].
  rewrite Z.lxor_assoc, Z.lxor_nilpotent, Z.lxor_0_r. f_equal. apply IH. lia.
Qed.
Lemma rnd_octets_length : forall n r, length (rnd_octets n r) = n.
Proof. intros. unfold rnd_octets. rewrite map_length, seq_length. reflexivity. Qed.
Lemma rnd_octets_ok : forall n r, bytes_ok (rnd_octets n r) = true.
Proof. intros. unfold rnd_octets, bytes_ok. apply forallb_forall. intros x I. apply in_map_iff in I. destruct I as (i & <- & _). apply is_byte_spec. lia. Qed.
Lemma rnd_nonzero_length : forall n r, length (rnd_nonzero n r) = n.
Proof. intros. unfold rnd_nonzero. rewrite map_length, seq_length. reflexivity. Qed.
Lemma rnd_nonzero_ok : forall n r, bytes_ok (rnd_nonzero n r) = true /\ ~ In 0 (rnd_nonzero n r).
Proof.
  intros. unfold rnd_nonzero, bytes_ok. split.
  - apply forallb_forall. intros x I. apply in_map_iff in I. destruct I as (i & <- & _). apply is_byte_spec. lia.
  - intro I. apply in_map_iff in I. destruct I as (i & E & _). lia.
Qed.

Lemma concat_hash_length : forall h seed n s, length (concat (map (fun i => hash h (seed ++ z2be 4 (Z.of_nat i))) (seq s n))) = (hlen h * n)%nat.
Proof.
  intros h seed n. induction n as [|n IH]; intro s; [cbn [seq map concat length]; lia|]. cbn [seq map concat]. rewrite app_length, IH, (proj1 (hash_len h _)). lia.
Qed.
Lemma hlen_pos : forall h, (0 < hlen h)%nat.
Proof. destruct h; cbn; lia. Qed.
Lemma mgf1_length : forall h seed n, length (mgf1 h seed n) = n.
Proof.
  intros. unfold mgf1. rewrite firstn_length, concat_hash_length. pose proof (hlen_pos h).
  pose proof (Nat.div_mod n (hlen h) ltac:(lia)). pose proof (Nat.mod_upper_bound n (hlen h) ltac:(lia)). nia.
Qed.
Lemma concat_hash_ok : forall h seed n s, bytes_ok (concat (map (fun i => hash h (seed ++ z2be 4 (Z.of_nat i))) (seq s n))) = true.
Proof.
  intros h seed n. induction n as [|n IH]; intro s; [reflexivity|]. cbn [seq map concat]. rewrite bytes_ok_app, IH, (proj2 (hash_len h _)). reflexivity.
Qed.
Lemma mgf1_ok : forall h seed n, bytes_ok (mgf1 h seed n) = true.
Proof. intros. unfold mgf1. apply bytes_ok_firstn, concat_hash_ok. Qed.
Lemma prefix_ok : forall h, bytes_ok (digest_prefix h) = true.
Proof. destruct h; apply z2be_ok. Qed.

(** ** PKCS#1 v1.5 signatures *)
Lemma emsa_v15_shape : forall h m len em, emsa_v15 h m len = Ok em -> length em = len /\ bytes_ok em = true /\ exists r, em = 0 :: r.
Proof.
  intros h m len em H. unfold emsa_v15 in H. destruct (Nat.ltb_spec len (length (digest_prefix h ++ hash h m) + 11)) as [|G]; [discriminate|].
  apply Ok_inj in H. subst em. remember (digest_prefix h ++ hash h m) as t. assert (T : bytes_ok t = true).
  { subst t. rewrite bytes_ok_app, prefix_ok. apply hash_len. }
  split; [|split].
  - rewrite !app_length, repeat_length. cbn [length]. lia.
  - rewrite !bytes_ok_app, T, bytes_ok_repeat by reflexivity. reflexivity.
  - eexists. reflexivity.
Qed.

(** ** PSS *)
Lemma clear_top_length : forall z b, length (clear_top z b) = length b.
Proof. intros z [|x b]; reflexivity. Qed.
Lemma clear_top_ok : forall z b, 0 <= z <= 8 -> bytes_ok b = true -> bytes_ok (clear_top z b) = true.
Proof.
  intros z [|x b] Z B; [reflexivity|]. cbn [clear_top]. rewrite bytes_ok_cons in *. apply andb_true_iff in B. destruct B as [X B]. rewrite B, andb_true_r.
  apply is_byte_spec in X. apply is_byte_spec. assert (1 <= 2 ^ (8 - z) <= 256).
  { split. apply (Z.pow_le_mono_r 2 0); lia. change 256 with (2 ^ 8). apply Z.pow_le_mono_r; lia. }
  pose proof (Z.mod_pos_bound x (2 ^ (8 - z)) ltac:(lia)). lia.
Qed.
Lemma clear_top_idem : forall z b, clear_top z (clear_top z b) = clear_top z b.
Proof. intros z [|x b]; [reflexivity|]. cbn [clear_top]. rewrite Zmod_mod. reflexivity. Qed.
Lemma lxor_mod_pow2 : forall a b n, 0 <= n -> Z.lxor a b mod 2 ^ n = Z.lxor (a mod 2 ^ n) (b mod 2 ^ n).
Proof.
  intros a b n N. rewrite <- !Z.land_ones by assumption. apply Z.bits_inj'. intros i I. rewrite Z.land_spec, !Z.lxor_spec, !Z.land_spec. btauto.
Qed.
Lemma clear_top_sxor : forall z a b, 0 <= z <= 8 -> clear_top z (sxor (clear_top z a) b) = clear_top z (sxor a b).
Proof.
  intros z [|x a] [|y b] Z; try reflexivity. cbn [clear_top sxor]. rewrite !lxor_mod_pow2 by lia. rewrite Zmod_mod. reflexivity.
Qed.
Lemma clear_top_val : forall z b, 0 <= z <= 8 -> bytes_ok b = true -> b <> [] -> 0 <= be2z (clear_top z b) < 2 ^ (8 * Z.of_nat (length b) - z).
Proof.
  intros z [|x b] Z B NE; [congruence|]. cbn [clear_top length]. rewrite be2z_cons. rewrite bytes_ok_cons in B. apply andb_true_iff in B.
  pose proof (be2z_bound b (proj2 B)) as BB. rewrite pow256 in *.
  assert (M : 0 < 2 ^ (8 - z)) by (apply Z.pow_pos_nonneg; lia). pose proof (Z.mod_pos_bound x _ M).
  replace (8 * Z.of_nat (S (length b)) - z) with ((8 - z) + 8 * Z.of_nat (length b)) by lia. rewrite Z.pow_add_r by lia. nia.
Qed.

Lemma emsa_pss_shape : forall h m salt bits em, 0 < bits -> length salt = hlen h -> bytes_ok salt = true -> emsa_pss h m salt bits = Ok em ->
  length em = Z.to_nat ((bits + 7) / 8) /\ bytes_ok em = true /\ 0 <= be2z em < 2 ^ bits.
Proof.
  intros h m salt bits em B SL SO H. unfold emsa_pss in H. set (emlen := Z.to_nat ((bits + 7) / 8)) in *.
  destruct (Nat.ltb_spec emlen (2 * hlen h + 2)) as [|G]; [discriminate|]. apply Ok_inj in H. subst em.
  assert (HL : length (pss_h h m salt) = hlen h) by apply hash_len. assert (HO : bytes_ok (pss_h h m salt) = true) by apply hash_len.
  set (db := repeat 0 (emlen - 2 * hlen h - 2) ++ [1] ++ salt).
  assert (DL : length db = (emlen - hlen h - 1)%nat) by (subst db; rewrite !app_length, repeat_length; cbn [length]; lia).
  assert (DO : bytes_ok db = true) by (subst db; rewrite !bytes_ok_app, bytes_ok_repeat, SO by reflexivity; reflexivity).
  set (md := sxor db _). assert (ML : length md = (emlen - hlen h - 1)%nat) by (subst md; rewrite sxor_length, mgf1_length, DL; lia).
  assert (MO : bytes_ok md = true) by (subst md; apply sxor_ok; [exact DO|apply mgf1_ok]).
  assert (ZR : 0 <= 8 * Z.of_nat emlen - bits <= 8) by (subst emlen; lia).
  split; [|split].
  - rewrite !app_length, clear_top_length, ML, HL. cbn [length]. lia.
  - rewrite !bytes_ok_app, clear_top_ok, HO by assumption. reflexivity.
  - assert (TL : length (pss_h h m salt ++ [188]) = S (hlen h)) by (rewrite app_length, HL; cbn [length]; lia).
    assert (TO : bytes_ok (pss_h h m salt ++ [188]) = true) by (rewrite bytes_ok_app, HO; reflexivity).
    rewrite be2z_app, TL. pose proof (be2z_bound _ TO) as TB. rewrite TL in TB. rewrite pow256 in *.
    pose proof (clear_top_val _ md ZR MO ltac:(intro E; rewrite E in ML; cbn [length] in ML; lia)) as CV. rewrite ML in CV.
    assert (E2 : 2 ^ bits = 2 ^ (8 * Z.of_nat (emlen - hlen h - 1) - (8 * Z.of_nat emlen - bits)) * 2 ^ (8 * Z.of_nat (S (hlen h)))).
    { rewrite <- Z.pow_add_r by lia. f_equal. lia. }
    rewrite E2. nia.
Qed.

Lemma clear_top_zeros : forall z n salt, 0 <= z <= 7 -> clear_top z (repeat 0 n ++ [1] ++ salt) = repeat 0 n ++ [1] ++ salt.
Proof.
  intros z n salt Z. destruct n as [|n]; cbn [repeat app clear_top].
  - f_equal. apply Z.mod_small. split; [lia|]. apply (Z.pow_lt_mono_r 2 0); lia.
  - reflexivity.
Qed.

Lemma emsa_pss_ok : forall h m salt bits em, 0 < bits -> length salt = hlen h -> emsa_pss h m salt bits = Ok em -> emsa_pss_verify h m em bits = true.
Proof.
  intros h m salt bits em B SL H. unfold emsa_pss in H. unfold emsa_pss_verify. set (emlen := Z.to_nat ((bits + 7) / 8)) in *.
  destruct (Nat.ltb_spec emlen (2 * hlen h + 2)) as [|G]; [discriminate|]. apply Ok_inj in H. subst em.
  assert (HL : length (pss_h h m salt) = hlen h) by apply hash_len.
  set (db := repeat 0 (emlen - 2 * hlen h - 2) ++ [1] ++ salt).
  assert (DL : length db = (emlen - hlen h - 1)%nat) by (subst db; rewrite !app_length, repeat_length; cbn [length]; lia).
  set (top := 8 * Z.of_nat emlen - bits). assert (ZR : 0 <= top <= 7) by (subst emlen top; lia).
  set (hh := pss_h h m salt) in *. set (md := sxor db (mgf1 h hh (emlen - hlen h - 1))).
  assert (ML : length (clear_top top md) = (emlen - hlen h - 1)%nat) by (rewrite clear_top_length; subst md; rewrite sxor_length, mgf1_length, DL; lia).
  assert (F : forall (a b : bytes) n, length a = n -> firstn n (a ++ b) = a /\ skipn n (a ++ b) = b).
  { intros a b n <-. split; [rewrite firstn_app, firstn_all, Nat.sub_diag, app_nil_r; reflexivity|rewrite skipn_app, skipn_all, Nat.sub_diag; reflexivity]. }
  destruct (F (clear_top top md) (hh ++ [188]) _ ML) as [F1 F2]. rewrite F1, F2.
  destruct (F hh [188] _ HL) as [F3 F4]. rewrite F3.
  replace (skipn (emlen - hlen h - 1 + hlen h) (clear_top top md ++ hh ++ [188])) with [188].
  2:{ rewrite app_assoc. symmetry. apply (F (clear_top top md ++ hh)). rewrite app_length, ML, HL. reflexivity. }
  rewrite zs_eqb_refl. cbn [negb]. rewrite clear_top_idem, zs_eqb_refl. cbn [negb].
  rewrite clear_top_sxor by lia. unfold md. rewrite sxor_inv by (rewrite mgf1_length; lia).
  unfold db. rewrite clear_top_zeros by exact ZR. rewrite app_assoc.
  destruct (F (repeat 0 (emlen - 2 * hlen h - 2) ++ [1]) salt (emlen - 2 * hlen h - 1)%nat) as [F5 F6].
  { rewrite app_length, repeat_length. cbn [length]. lia. }
  rewrite F5, F6, zs_eqb_refl. cbn [negb]. apply zs_eqb_refl.
Qed.

Lemma mod_bits_pow : forall k, rsa_wf k -> 0 < mod_bits k - 1 /\ 2 ^ (mod_bits k - 1) <= r_n k.
Proof.
  intros k W. pose proof (wf_n_pos k W) as N. pose proof (Z.log2_spec (r_n k) ltac:(lia)) as [L1 L2]. unfold mod_bits.
  replace (Z.log2 (r_n k) + 1 - 1) with (Z.log2 (r_n k)) by lia. split; [|exact L1]. apply Z.log2_pos. lia.
Qed.

Theorem rsa_sign_verify : forall k s h rnd m sg, rsa_wf k -> rsa_sign s h k rnd m = Ok sg ->
  bytes_ok sg = true /\ rsa_verify s h k m sg = Ok true.
Proof.
  intros k s h rnd m sg W H. unfold rsa_sign in H.
  set (r := match s with PKCS1v15 => _ | PSS => _ end) in H. destruct r as [em|e] eqn:EM; [|discriminate]. subst r. cbn [bind] in H.
  assert (X : 0 <= be2z em < r_n k).
  { destruct s.
    - destruct (emsa_v15_shape _ _ _ _ EM) as (L & O & r & ->). apply em_lt; [exact W| |exact L]. exact O.
    - destruct (mod_bits_pow k W) as [B P]. destruct (emsa_pss_shape _ _ _ _ _ B (rnd_octets_length _ _) (rnd_octets_ok _ _) EM) as (_ & _ & E). lia. }
  destruct (rsa_ops k _ W X) as (_ & y & Y1 & Y2 & Y3). rewrite Y1 in H. cbn [bind] in H. apply Ok_inj in H. subst sg.
  split; [apply z2be_ok|]. unfold rsa_verify. rewrite z2be_length, Nat.eqb_refl. cbn [negb]. rewrite z2be_back, Y3 by assumption. cbn [bind].
  destruct s.
  - rewrite EM. cbn [bind to_bool]. destruct (emsa_v15_shape _ _ _ _ EM) as (L & O & _). rewrite <- L, z2be_be2z, zs_eqb_refl by exact O. reflexivity.
  - destruct (mod_bits_pow k W) as [B P]. destruct (emsa_pss_shape _ _ _ _ _ B (rnd_octets_length _ _) (rnd_octets_ok _ _) EM) as (L & O & E).
    rewrite <- L. pose proof (be2z_bound em O). destruct (Z.leb_spec (256 ^ Z.of_nat (length em)) (be2z em)); [lia|]. rewrite z2be_be2z by exact O.
    cbn [to_bool]. rewrite (emsa_pss_ok _ _ _ _ _ B (rnd_octets_length _ _) EM). reflexivity.
Qed.

Lemma rsa_verify_pub : forall s h k m sg, rsa_verify s h (rsa_pub k) m sg = rsa_verify s h k m sg.
Proof. reflexivity. Qed.
Lemma rsa_encrypt_pub : forall s k rnd m, rsa_encrypt s (rsa_pub k) rnd m = rsa_encrypt s k rnd m.
Proof. reflexivity. Qed.

(** ** Encryption *)
Lemma find0_app : forall a b, ~ In 0 a -> find0 (a ++ 0 :: b) = Some (length a).
Proof.
  induction a as [|x a IH]; intros b N; [reflexivity|]. cbn [app find0 length]. destruct (Z.eqb_spec x 0) as [->|]; [exfalso; apply N; left; reflexivity|].
  rewrite IH by (intro; apply N; right; assumption). reflexivity.
Qed.
Lemma eme_v15_ok : forall m rnd len em, bytes_ok m = true -> eme_v15 m rnd len = Ok em ->
  length em = len /\ bytes_ok em = true /\ (exists r, em = 0 :: r) /\ eme_v15_decode em = Some m.
Proof.
  intros m rnd len em M H. unfold eme_v15 in H. destruct (Nat.ltb_spec len (length m + 11)) as [|G]; [discriminate|]. apply Ok_inj in H. subst em.
  destruct (rnd_nonzero_ok (len - length m - 3) rnd) as [O N]. split; [|split; [|split]].
  - rewrite !app_length, rnd_nonzero_length. cbn [length]. lia.
  - rewrite !bytes_ok_app, O, M. reflexivity.
  - eexists. reflexivity.
  - cbn [app eme_v15_decode]. rewrite !Z.eqb_refl. cbn [andb]. rewrite find0_app by exact N. rewrite rnd_nonzero_length.
    destruct (Nat.ltb_spec (len - length m - 3) 8); [lia|]. f_equal.
    replace (S (len - length m - 3)) with (length (rnd_nonzero (len - length m - 3) rnd ++ [0])) by (rewrite app_length, rnd_nonzero_length; cbn [length]; lia).
    change (0 :: m) with ([0] ++ m). rewrite app_assoc, skipn_app, skipn_all, Nat.sub_diag. reflexivity.
Qed.

Lemma after_one_zeros : forall n m, after_one (repeat 0 n ++ [1] ++ m) = Some m.
Proof. induction n as [|n IH]; intro m; [reflexivity|]. cbn [repeat app after_one]. rewrite Z.eqb_refl. apply IH. Qed.

Lemma eme_oaep_ok : forall h m rnd len em, bytes_ok m = true -> eme_oaep h m rnd len = Ok em ->
  length em = len /\ bytes_ok em = true /\ (exists r, em = 0 :: r) /\ eme_oaep_decode h em = Ok m.
Proof.
  intros h m rnd len em M H. unfold eme_oaep in H. destruct (Nat.ltb_spec len (length m + 2 * hlen h + 2)) as [|G]; [discriminate|]. apply Ok_inj in H. subst em.
  destruct (hash_len h []) as [EL EO]. set (lh := hash h []) in *.
  set (seed := rnd_octets (hlen h) rnd). assert (SL : length seed = hlen h) by apply rnd_octets_length. assert (SO : bytes_ok seed = true) by apply rnd_octets_ok.
  set (db := lh ++ repeat 0 (len - length m - 2 * hlen h - 2) ++ [1] ++ m).
  assert (DL : length db = (len - hlen h - 1)%nat) by (subst db; rewrite !app_length, repeat_length, EL; cbn [length]; lia).
  assert (DO : bytes_ok db = true) by (subst db; rewrite !bytes_ok_app, EO, M, bytes_ok_repeat by reflexivity; reflexivity).
  set (mdb := sxor db (mgf1 h seed (len - hlen h - 1))).
  assert (ML : length mdb = (len - hlen h - 1)%nat) by (subst mdb; rewrite sxor_length, mgf1_length, DL; lia).
  assert (MO : bytes_ok mdb = true) by (subst mdb; apply sxor_ok; [exact DO|apply mgf1_ok]).
  set (ms := sxor seed (mgf1 h mdb (hlen h))).
  assert (MSL : length ms = hlen h) by (subst ms; rewrite sxor_length, mgf1_length, SL; lia).
  assert (MSO : bytes_ok ms = true) by (subst ms; apply sxor_ok; [exact SO|apply mgf1_ok]).
  assert (LEN : length ([0] ++ ms ++ mdb) = len) by (rewrite !app_length, MSL, ML; cbn [length]; lia).
  split; [exact LEN|]. split; [rewrite !bytes_ok_app, MSO, MO; reflexivity|]. split; [eexists; reflexivity|].
  unfold eme_oaep_decode. rewrite LEN. destruct (Nat.ltb_spec len (2 * hlen h + 2)); [lia|].
  assert (F : forall (a b : bytes) n, length a = n -> firstn n (a ++ b) = a /\ skipn n (a ++ b) = b).
  { intros a b n <-. split; [rewrite firstn_app, firstn_all, Nat.sub_diag, app_nil_r; reflexivity|rewrite skipn_app, skipn_all, Nat.sub_diag; reflexivity]. }
  change (skipn 1 ([0] ++ ms ++ mdb)) with (ms ++ mdb). destruct (F ms mdb _ MSL) as [F1 F2]. rewrite F1.
  replace (skipn (hlen h + 1) ([0] ++ ms ++ mdb)) with mdb by (rewrite Nat.add_1_r; cbn [app skipn]; symmetry; exact F2).
  assert (I1 : sxor ms (mgf1 h mdb (hlen h)) = seed) by (apply (sxor_inv seed); rewrite mgf1_length; lia).
  assert (I2 : sxor mdb (mgf1 h seed (len - hlen h - 1)) = db) by (apply (sxor_inv db); rewrite mgf1_length; lia).
  rewrite I1, I2.
  change (firstn 1 ([0] ++ ms ++ mdb)) with [0]. rewrite zs_eqb_refl. cbn [negb orb].
  unfold db.
  destruct (F lh (repeat 0 (len - length m - 2 * hlen h - 2) ++ [1] ++ m) _ EL) as [F3 F4]. rewrite F3, F4; fold lh; rewrite zs_eqb_refl. cbn [negb].
  rewrite after_one_zeros. reflexivity.
Qed.

Theorem rsa_encrypt_decrypt : forall k s rnd m ct, rsa_wf k -> bytes_ok m = true -> rsa_encrypt s k rnd m = Ok ct ->
  bytes_ok ct = true /\ rsa_decrypt s k ct = Ok (Some m).
Proof.
  intros k s rnd m ct W M H. unfold rsa_encrypt in H.
  set (r := match s with RSA15 => _ | OAEP | OAEP256 => _ end) in H. destruct r as [em|e] eqn:EM; [|discriminate]. subst r. cbn [bind] in H.
  assert (S1 : length em = mod_len k /\ bytes_ok em = true /\ (exists r, em = 0 :: r) /\
               match s with RSA15 => eme_v15_decode em = Some m | _ => eme_oaep_decode (oaep_hash s) em = Ok m end).
  { destruct s; [apply eme_v15_ok with rnd|apply eme_oaep_ok with rnd..]; assumption. }
  destruct S1 as (L & O & (r & R) & D).
  assert (X : 0 <= be2z em < r_n k). { rewrite R in *. apply em_lt; [exact W|exact O|exact L]. }
  destruct (rsa_ops k _ W X) as ((y & Y1 & Y2 & Y3) & _). rewrite Y1 in H. cbn [bind] in H. apply Ok_inj in H. subst ct.
  split; [apply z2be_ok|]. unfold rsa_decrypt. rewrite z2be_length, Nat.eqb_refl. cbn [negb]. rewrite z2be_back, Y3 by assumption. cbn [bind].
  rewrite <- L, z2be_be2z by exact O. destruct s; rewrite D; reflexivity.
Qed.

(** ** Enough room: the operations succeed *)
Lemma rsa_sign_total : forall k s h rnd m, rsa_wf k -> 1040 <= mod_bits k -> exists sg, rsa_sign s h k rnd m = Ok sg.
Proof.
  intros k s h rnd m W B. unfold rsa_sign.
  assert (EM : exists em, (match s with PKCS1v15 => emsa_v15 h m (mod_len k) | PSS => emsa_pss h m (rnd_octets (hlen h) rnd) (mod_bits k - 1) end) = Ok em).
  { assert (HB : (hlen h <= 64)%nat) by (destruct h; cbn; lia). destruct s.
    - unfold emsa_v15. assert (L : (length (digest_prefix h ++ hash h m) <= 83)%nat).
      { rewrite app_length, (proj1 (hash_len h m)). destruct h; cbn [digest_prefix hlen]; rewrite z2be_length; lia. }
      destruct (Nat.ltb_spec (mod_len k) (length (digest_prefix h ++ hash h m) + 11)); [unfold mod_len in *; lia|]. eexists. reflexivity.
    - unfold emsa_pss. destruct (Nat.ltb_spec (Z.to_nat ((mod_bits k - 1 + 7) / 8)) (2 * hlen h + 2)); [lia|]. eexists. reflexivity. }
  destruct EM as [em EM]. rewrite EM. cbn [bind].
  assert (X : 0 <= be2z em < r_n k).
  { destruct s.
    - destruct (emsa_v15_shape _ _ _ _ EM) as (L & O & r & ->). apply em_lt; [exact W| |exact L]. exact O.
    - destruct (mod_bits_pow k W) as [B' P]. destruct (emsa_pss_shape _ _ _ _ _ B' (rnd_octets_length _ _) (rnd_octets_ok _ _) EM) as (_ & _ & E). lia. }
  destruct (rsa_ops k _ W X) as (_ & y & Y1 & _). rewrite Y1. cbn [bind]. eexists. reflexivity.
Qed.

Lemma rsa_encrypt_total : forall k s rnd m, rsa_wf k -> bytes_ok m = true -> Z.of_nat (length m) * 8 + 528 <= mod_bits k -> exists ct, rsa_encrypt s k rnd m = Ok ct.
Proof.
  intros k s rnd m W M B. unfold rsa_encrypt.
  assert (EM : exists em, (match s with RSA15 => eme_v15 m rnd (mod_len k) | OAEP | OAEP256 => eme_oaep (oaep_hash s) m rnd (mod_len k) end) = Ok em /\
    length em = mod_len k /\ bytes_ok em = true /\ (exists r, em = 0 :: r)).
  { assert (ML : (length m + 66 <= mod_len k)%nat) by (unfold mod_len; lia).
    assert (OA : forall h, (hlen h <= 32)%nat -> exists em, eme_oaep h m rnd (mod_len k) = Ok em).
    { intros h HB. unfold eme_oaep. destruct (Nat.ltb_spec (mod_len k) (length m + 2 * hlen h + 2)); [lia|]. eexists. reflexivity. }
    destruct s.
    - assert (V : exists em, eme_v15 m rnd (mod_len k) = Ok em).
      { unfold eme_v15. destruct (Nat.ltb_spec (mod_len k) (length m + 11)); [lia|]. eexists. reflexivity. }
      destruct V as [em V]. exists em. split; [exact V|]. destruct (eme_v15_ok _ _ _ _ M V) as (a & b & c & _). tauto.
    - destruct (OA SHA1) as [em V]; [cbn; lia|]. exists em. split; [exact V|]. destruct (eme_oaep_ok _ _ _ _ _ M V) as (a & b & c & _). tauto.
    - destruct (OA SHA256) as [em V]; [cbn; lia|]. exists em. split; [exact V|]. destruct (eme_oaep_ok _ _ _ _ _ M V) as (a & b & c & _). tauto. }
  destruct EM as (em & EM & L & O & r & R). rewrite EM. cbn [bind].
  assert (X : 0 <= be2z em < r_n k). { rewrite R in *. apply em_lt; [exact W|exact O|exact L]. }
  destruct (rsa_ops k _ W X) as ((y & Y1 & _) & _). rewrite Y1. cbn [bind]. eexists. reflexivity.
Qed.
