(** * Histories of an AES_GCM object, and the statements about IV reuse and key conversion. *)
From Coq Require Import ZArith List Bool Lia ZifyBool.
From Verif Require Import Base BaseProofs Prims KeyWrap KeyWrapProofs Elliptic Ecc Extra ExtraProofs Gcm GcmSpec GcmProofs GcmProofs2.
Import ListNotations.
Open Scope Z_scope.

(** The objects reachable from a successful construction by any encryptions and successful key changes; the index is
    the octet form of the last key number. *)
Inductive gcm_reach (P : prims) : bytes -> gcm -> Prop :=
| gr_new : forall k g, gcm_new P k = Ok g -> gcm_reach P (long_to_bytes k 16) g
| gr_enc : forall key g g' iv pt aad r, gcm_reach P key g -> gcm_encrypt P g iv pt aad = (g', r) -> gcm_reach P key g'
| gr_key : forall key g g' k, gcm_reach P key g -> change_key P g k = (g', Ok tt) -> gcm_reach P (long_to_bytes k 16) g'.

Lemma long_to_bytes_ok : forall k b, bytes_ok (long_to_bytes k b) = true.
Proof. intros. unfold long_to_bytes. apply z2be_ok. Qed.

Lemma change_key_size : forall P g g' k, change_key P g k = (g', Ok tt) -> aes_keysize (long_to_bytes k 16) = true.
Proof. intros P g g' k H. unfold change_key in H. destruct (aes_keysize (long_to_bytes k 16)); [reflexivity|discriminate H]. Qed.
Lemma gcm_new_size : forall P g k, gcm_new P k = Ok g -> aes_keysize (long_to_bytes k 16) = true.
Proof.
  intros P g k H. unfold gcm_new in H. destruct (change_key _ _ k) as [g0 [[]|]] eqn:C; [|discriminate]. eapply change_key_size, C.
Qed.

Lemma encrypt_keeps : forall P g g' iv pt aad r, gcm_encrypt P g iv pt aad = (g', r) ->
  g_key g' = g_key g /\ g_ecb g' = g_ecb g /\ g_auth g' = g_auth g /\ g_table g' = g_table g.
Proof.
  intros P g g' iv pt aad r H. unfold gcm_encrypt in H.
  destruct (negb _); [injection H as <- _; tauto|]. destruct (match g_prev g with Some _ => _ | None => _ end); injection H as <- _; cbn; tauto.
Qed.

Lemma reach_for : forall P, aes_law P -> forall key g, gcm_reach P key g -> aes_keysize key = true /\ bytes_ok key = true /\ gcm_for P key g.
Proof.
  intros P A key g R. induction R as [k g N|key g g' iv pt aad r R IH E|key g g' k R IH C].
  - pose proof (gcm_new_size _ _ _ N) as S. split; [exact S|]. split; [apply long_to_bytes_ok|].
    destruct (gcm_new_ok P A _ S (long_to_bytes_ok _ _) k eq_refl) as (g0 & N0 & F & _). congruence.
  - destruct IH as (S & O & F). split; [exact S|]. split; [exact O|]. destruct (encrypt_keeps _ _ _ _ _ _ _ E) as (E1 & E2 & E3 & E4).
    unfold gcm_for in *. rewrite E1, E2, E3, E4. exact F.
  - pose proof (change_key_size _ _ _ _ C) as S. split; [exact S|]. split; [apply long_to_bytes_ok|].
    destruct (change_key_ok P A _ S (long_to_bytes_ok _ _) g k eq_refl) as (g0 & N0 & F & _). congruence.
Qed.

(** C43 *)
Lemma reach_ghash : forall P, aes_law P -> forall key g, gcm_reach P key g -> forall aad txt,
  bytes_ok aad = true -> bytes_ok txt = true -> 8 * Z.of_nat (length aad) < 2 ^ 64 -> 8 * Z.of_nat (length txt) < 2 ^ 64 ->
  ghash g aad txt = ghash_spec (be2z (p_aes_enc P key (repeat 0 16))) aad txt.
Proof.
  intros P A key g R aad txt B1 B2 L1 L2. destruct (reach_for P A key g R) as (S & O & F). destruct F as (F1 & F2 & F3 & F4).
  apply ghash_ok; try assumption. rewrite F4, F3. reflexivity.
Qed.

(** C44 *)
Lemma reach_round : forall P, aes_law P -> forall key g, gcm_reach P key g -> forall iv pt aad,
  0 <= iv < 2 ^ 96 -> g_prev g <> Some iv -> bytes_ok pt = true -> bytes_ok aad = true ->
  Z.of_nat (length pt) <= 16 * 2 ^ 32 -> 8 * Z.of_nat (length aad) < 2 ^ 64 ->
  exists g' ct tag, gcm_encrypt P g iv pt aad = (g', Ok (ct, tag)) /\ length ct = length pt /\ 0 <= tag < 2 ^ 128 /\ gcm_decrypt P g' iv ct tag aad = Ok pt /\
    (forall h, gcm_reach P key h -> gcm_decrypt P h iv ct tag aad = Ok pt).
Proof.
  intros P A key g R iv pt aad I NP B1 B2 L1 L2. destruct (reach_for P A key g R) as (S & O & F).
  destruct (gcm_encrypt_ok P A key S O g iv pt aad F I NP B1 B2 L1 L2) as (g' & E & F' & _).
  exists g'. do 2 eexists. split; [exact E|].
  destruct (gcm_c_props P A key S O (z2be 12 iv) pt (z2be_length _ _) (z2be_ok _ _) B1) as (C1 & C2 & C3).
  pose proof (gcm_t_bound P A key S O (z2be 12 iv) aad (gcm_c P key (z2be 12 iv) pt) (z2be_length _ _) (z2be_ok _ _)) as T.
  split; [exact C1|]. split; [exact T|].
  assert (D : forall h, gcm_for P key h -> gcm_decrypt P h iv (gcm_c P key (z2be 12 iv) pt) (gcm_t P key (z2be 12 iv) aad (gcm_c P key (z2be 12 iv) pt)) aad = Ok pt).
  { intros h H. rewrite (gcm_decrypt_ok P A key S O) by (try assumption; try lia; rewrite C1; exact L1). rewrite Z.eqb_refl, C3. reflexivity. }
  split; [apply D; exact F'|]. intros h H. apply D. destruct (reach_for P A key h H) as (_ & _ & FH). exact FH.
Qed.

(** encryption is NIST GCM *)
Lemma reach_encrypt_spec : forall P, aes_law P -> forall key g, gcm_reach P key g -> forall iv pt aad,
  0 <= iv < 2 ^ 96 -> g_prev g <> Some iv -> bytes_ok pt = true -> bytes_ok aad = true ->
  Z.of_nat (length pt) <= 16 * 2 ^ 32 -> 8 * Z.of_nat (length aad) < 2 ^ 64 ->
  snd (gcm_encrypt P g iv pt aad) = Ok (gcm_c P key (z2be 12 iv) pt, gcm_t P key (z2be 12 iv) aad (gcm_c P key (z2be 12 iv) pt)).
Proof.
  intros P A key g R iv pt aad I NP B1 B2 L1 L2. destruct (reach_for P A key g R) as (S & O & F).
  destruct (gcm_encrypt_ok P A key S O g iv pt aad F I NP B1 B2 L1 L2) as (g' & E & F' & _). rewrite E. reflexivity.
Qed.

(** C45 *)
Lemma reach_auth : forall P, aes_law P -> forall key g, gcm_reach P key g -> forall iv ct tag aad,
  0 <= iv < 2 ^ 96 -> bytes_ok ct = true -> bytes_ok aad = true -> Z.of_nat (length ct) <= 16 * 2 ^ 32 -> 8 * Z.of_nat (length aad) < 2 ^ 64 -> tag < 2 ^ 128 ->
  (tag = gcm_t P key (z2be 12 iv) aad ct -> exists pt, gcm_decrypt P g iv ct tag aad = Ok pt) /\
  (tag <> gcm_t P key (z2be 12 iv) aad ct -> gcm_decrypt P g iv ct tag aad = Raise EInvalidTagException).
Proof.
  intros P A key g R iv ct tag aad I B1 B2 L1 L2 T. destruct (reach_for P A key g R) as (S & O & F).
  rewrite (gcm_decrypt_ok P A key S O) by assumption. split; intro E.
  - subst tag. rewrite Z.eqb_refl. eexists. reflexivity.
  - apply Z.eqb_neq in E. rewrite E. reflexivity.
Qed.
Lemma reach_auth_enc : forall P, aes_law P -> forall key g, gcm_reach P key g -> forall iv ct tag aad pt,
  0 <= iv < 2 ^ 96 -> bytes_ok ct = true -> bytes_ok aad = true -> Z.of_nat (length ct) <= 16 * 2 ^ 32 -> 8 * Z.of_nat (length aad) < 2 ^ 64 ->
  gcm_decrypt P g iv ct tag aad = Ok pt ->
  forall h, gcm_reach P key h -> g_prev h <> Some iv -> snd (gcm_encrypt P h iv pt aad) = Ok (ct, tag).
Proof.
  intros P A key g R iv ct tag aad pt I B1 B2 L1 L2 D h H NP. destruct (reach_for P A key g R) as (S & O & F).
  assert (T : tag < 2 ^ 128). { unfold gcm_decrypt in D. destruct (negb (iv <? 2 ^ 96)); [discriminate|]. destruct (tag <? 2 ^ 128) eqn:E; [lia|discriminate]. }
  rewrite (gcm_decrypt_ok P A key S O) in D by assumption. destruct (Z.eqb_spec tag (gcm_t P key (z2be 12 iv) aad ct)) as [->|]; [|discriminate].
  apply Ok_inj in D. subst pt.
  destruct (gcm_c_props P A key S O (z2be 12 iv) ct (z2be_length _ _) (z2be_ok _ _) B1) as (C1 & C2 & C3).
  rewrite (reach_encrypt_spec P A key h H) by (try assumption; rewrite C1; exact L1). rewrite C3. reflexivity.
Qed.

(** C46 *)
Lemma reuse_rejected : forall P g g' iv pt aad c pt' aad', gcm_encrypt P g iv pt aad = (g', Ok c) ->
  gcm_encrypt P g' iv pt' aad' = (g', Raise EInvalidInputException).
Proof.
  intros P g g' iv pt aad c pt' aad' H. unfold gcm_encrypt in H. destruct (iv <? 2 ^ 96) eqn:I; [|discriminate H]. cbn [negb] in H.
  destruct (match g_prev g with Some _ => _ | None => _ end); [discriminate H|]. injection H as <- _.
  unfold gcm_encrypt. rewrite I. cbn [negb g_prev]. rewrite Z.eqb_refl. reflexivity.
Qed.

Lemma xor_stream_cancel : forall ks p1 p2 : bytes, length p1 = length p2 -> (length p1 <= length ks)%nat ->
  bxor (xor_stream p1 ks) (xor_stream p2 ks) = bxor p1 p2.
Proof.
  induction ks as [|k ks IH]; intros [|a p1] [|b p2] L M; cbn [length] in *; try reflexivity; try lia.
  unfold xor_stream in *. cbn [combine map bxor]. rewrite IH by lia. f_equal.
  rewrite (Z.lxor_comm b k), Z.lxor_assoc, <- (Z.lxor_assoc k k b), Z.lxor_nilpotent, Z.lxor_0_l. reflexivity.
Qed.

Lemma reuse_possible : forall P, aes_law P -> forall key k, aes_keysize key = true -> bytes_ok key = true -> long_to_bytes k 16 = key ->
  forall p1 p2, bytes_ok p1 = true -> bytes_ok p2 = true -> length p1 = length p2 -> Z.of_nat (length p1) <= 16 * 2 ^ 32 ->
  exists g0 g1 g2 g3 c1 t1 c2 c3 t3, gcm_new P k = Ok g0 /\
    gcm_encrypt P g0 1 p1 [] = (g1, Ok (c1, t1)) /\ gcm_encrypt P g1 2 [] [] = (g2, Ok c2) /\ gcm_encrypt P g2 1 p2 [] = (g3, Ok (c3, t3)) /\
    bxor c1 c3 = bxor p1 p2.
Proof.
  intros P A key k S O K p1 p2 B1 B2 L M. destruct (gcm_new_ok P A key S O k K) as (g0 & N & F0 & V0).
  destruct (gcm_encrypt_ok P A key S O g0 1 p1 [] F0) as (g1 & E1 & F1 & V1); [lia|rewrite V0; discriminate|exact B1|reflexivity|exact M|reflexivity|].
  destruct (gcm_encrypt_ok P A key S O g1 2 [] [] F1) as (g2 & E2 & F2 & V2); [lia|rewrite V1; discriminate|reflexivity|reflexivity|discriminate|reflexivity|].
  destruct (gcm_encrypt_ok P A key S O g2 1 p2 [] F2) as (g3 & E3 & F3 & V3); [lia|rewrite V2; discriminate|exact B2|reflexivity|lia|reflexivity|].
  exists g0, g1, g2, g3. do 5 eexists. split; [exact N|]. split; [exact E1|]. split; [exact E2|]. split; [exact E3|].
  unfold gcm_c. rewrite <- L. apply xor_stream_cancel; [exact L|].
  destruct (gcm_c_props P A key S O (z2be 12 1) p1 (z2be_length _ _) (z2be_ok _ _) B1) as (C1 & _). unfold gcm_c, xor_stream in C1.
  rewrite map_length, combine_length in C1. lia.
Qed.

(** C47 *)
Lemma gcm_key_16 : forall P, aes_law P -> forall k, length k = 16%nat \/ (length k = 32%nat /\ firstn 16 k <> repeat 0 16) -> bytes_ok k = true ->
  exists g, gcm_new P (be2z k) = Ok g /\ g_key g = k /\ g_ecb g = k.
Proof.
  intros P A k L O. assert (K : long_to_bytes (be2z k) 16 = k) by (destruct L as [L|[L H]]; [apply key16|apply key32]; assumption).
  assert (S : aes_keysize k = true) by (unfold aes_keysize; destruct L as [->|[-> _]]; reflexivity).
  destruct (gcm_new_ok P A k S O (be2z k) K) as (g & N & (F1 & F2 & _) & _). exists g. tauto.
Qed.
Lemma gcm_key_24 : forall P k g, length k = 24%nat -> gcm_new P (be2z k) = Ok g -> g_key g <> k.
Proof.
  intros P k g L N. unfold gcm_new in N. destruct (change_key _ _ _) as [g0 [[]|]] eqn:C; [|discriminate]. apply Ok_inj in N. subst g0.
  unfold change_key in C. destruct (aes_keysize _); [|discriminate]. cbn [negb] in C. destruct (make_table _); [|discriminate]. injection C as <-.
  cbn [g_key]. apply key24. exact L.
Qed.
Lemma gcm_key_24_works : forall P, aes_law P -> exists k g, length k = 24%nat /\ bytes_ok k = true /\ gcm_new P (be2z k) = Ok g /\ length (g_key g) = 32%nat.
Proof.
  intros P A. set (k := repeat 1 24).
  destruct (gcm_new_ok P A (long_to_bytes (be2z k) 16) eq_refl (long_to_bytes_ok _ _) (be2z k) eq_refl) as (g & N & (F1 & _) & _).
  exists k, g. repeat split; try assumption. rewrite F1. reflexivity.
Qed.
Lemma gcm_key_32_bad : forall P, aes_law P -> forall k, length k = 16%nat -> bytes_ok k = true ->
  exists g, gcm_new P (be2z (repeat 0 16 ++ k)) = Ok g /\ g_key g = k.
Proof.
  intros P A k L O. replace (be2z (repeat 0 16 ++ k)) with (be2z k).
  - destruct (gcm_key_16 P A k (or_introl L) O) as (g & N & K & _). exists g. tauto.
  - rewrite be2z_app. reflexivity.
Qed.

(** C36, C58 helpers *)
Lemma wrap_tail : forall P kek key tail, (length key mod 8)%nat = 0%nat -> (length tail < 8)%nat -> aes_wrap_key P kek (key ++ tail) = aes_wrap_key P kek key.
Proof. intros. apply wrap_drops; assumption. Qed.

Lemma concat_sha256_prefix : forall P, hash_law P -> forall s n i, bytes_ok s = true -> bytes_ok i = true -> n <= 256 * (2 ^ 32 - 1) ->
  exists dk, concat_sha256 P s n i = Ok dk /\ length dk = Z.to_nat ((n + 7) / 8) /\
    forall m, (Z.to_nat ((n + 255) / 256) <= m)%nat -> dk = firstn (Z.to_nat ((n + 7) / 8)) (concat (map (fun c => p_hash P SHA256 (z2be 4 (Z.of_nat c) ++ s ++ i)) (seq 1 m))).
Proof.
  intros P H s n i B1 B2 N. destruct (concat_sha256_ok P H s n i B1 B2 N) as [C L]. eexists. split; [exact C|]. split; [exact L|].
  intros m M. change (concat (map (fun c => p_hash P SHA256 (z2be 4 (Z.of_nat c) ++ s ++ i)) (seq 1 m))) with (kdf_stream P s i m).
  set (a := Z.to_nat ((n + 255) / 256)) in *. replace m with (a + (m - a))%nat by lia.
  unfold kdf_stream at 2. rewrite seq_app, map_app, concat_app. fold (kdf_stream P s i a). rewrite firstn_app.
  replace (Z.to_nat ((n + 7) / 8) - length (kdf_stream P s i a))%nat with 0%nat; [rewrite firstn_O, app_nil_r; reflexivity|].
  rewrite firstn_length in L. lia.
Qed.
