(** * Content encryption (jwe.py:324-396) *)
From Coq Require Import ZArith List Bool Lia.
From Verif Require Import Base BaseProofs Utf8 Codec CodecProofs Json Jwt JwtProofs Prims Elliptic Ecc KeyWrap Extra ExtraProofs Gcm GcmSpec GcmProofs GcmProofs2 Jwk Jws Jwe.
Import ListNotations.
Open Scope Z_scope.

(** The key and IV sizes RFC 7518 section 5 prescribes, in octets. *)
Definition enc_sizes (e : ustr) : option (nat * nat) :=
  if zs_eqb e (lit "A128GCM") then Some (16, 12)%nat
  else if zs_eqb e (lit "A192GCM") then Some (24, 12)%nat
  else if zs_eqb e (lit "A256GCM") then Some (32, 12)%nat
  else if zs_eqb e (lit "A128CBC-HS256") then Some (32, 16)%nat
  else if zs_eqb e (lit "A192CBC-HS384") then Some (48, 16)%nat
  else if zs_eqb e (lit "A256CBC-HS512") then Some (64, 16)%nat
  else None.

(** Random octets: as many as asked for. *)
Record draws_ok (R : draws) : Prop := {
  do_cek : forall n, length (r_cek R n) = n /\ bytes_ok (r_cek R n) = true;
  do_iv : forall n, length (r_iv R n) = n /\ bytes_ok (r_iv R n) = true;
  do_apu : length (r_apu R) = 16%nat /\ bytes_ok (r_apu R) = true;
  do_apv : length (r_apv R) = 16%nat /\ bytes_ok (r_apv R) = true }.

Ltac split_ifs := repeat match goal with |- context [if zs_eqb ?a ?b then _ else _] => let E := fresh "E" in destruct (zs_eqb a b) eqn:E; [apply zs_eqb_eq in E; subst a|] end.

Lemma zs_eqb_sym : forall a b, zs_eqb a b = zs_eqb b a.
Proof.
  intros a b. destruct (zs_eqb a b) eqn:E, (zs_eqb b a) eqn:F; try reflexivity.
  - apply zs_eqb_eq in E. subst b. rewrite zs_eqb_refl in F. discriminate.
  - apply zs_eqb_eq in F. subst b. rewrite zs_eqb_refl in E. discriminate.
Qed.

(** ** C56 *)
Lemma encalg_sizes : forall e,
  match dget ENCALGLEN1 e with
  | Some n => Ok (n, 12%nat)
  | None => match dget ENCALGLEN2 e with Some n => Ok (n, 16%nat) | None => Raise EException end
  end = match enc_sizes e with Some p => Ok p | None => Raise EException end.
Proof.
  intro e. unfold enc_sizes, ENCALGLEN1, ENCALGLEN2. cbn [dget].
  rewrite !(zs_eqb_sym (lit _) e).
  repeat match goal with |- context [zs_eqb e (lit ?a)] => let E := fresh "E" in destruct (zs_eqb e (lit a)) eqn:E; [reflexivity|] end. reflexivity.
Qed.

Theorem generate_known : forall R e kl il cek iv, draws_ok R -> enc_sizes e = Some (kl, il) ->
  exists k v, generate_key_and_iv R (VStr e) cek iv = Ok (k, v) /\
    (cek <> [] -> k = cek) /\ (cek = [] -> length k = kl /\ bytes_ok k = true) /\
    (iv <> [] -> v = iv) /\ (iv = [] -> length v = il /\ bytes_ok v = true).
Proof.
  intros R e kl il cek iv D S. unfold generate_key_and_iv. rewrite encalg_sizes, S. cbn [bind].
  exists (if is_nil cek then r_cek R kl else cek), (if is_nil iv then r_iv R il else iv).
  split; [destruct cek, iv; reflexivity|]. destruct cek, iv; cbn [is_nil]; (split; [|split; [|split]]); intro; try congruence; try apply D.
Qed.
Theorem generate_unknown : forall R enc cek iv,
  (forall e, enc = VStr e -> enc_sizes e = None) ->
  (cek <> [] /\ iv <> [] /\ generate_key_and_iv R enc cek iv = Ok (cek, iv)) \/
  ((cek = [] \/ iv = []) /\ exists x, generate_key_and_iv R enc cek iv = Raise x).
Proof.
  intros R enc cek iv U. unfold generate_key_and_iv. destruct (negb (is_nil cek) && negb (is_nil iv)) eqn:E.
  - left. destruct cek, iv; try discriminate. repeat split; discriminate.
  - right. split; [destruct cek; [left; reflexivity|]; destruct iv; [right; reflexivity|discriminate]|].
    destruct enc; try (eexists; reflexivity). rewrite encalg_sizes, U by reflexivity. eexists. reflexivity.
Qed.

(** ** GCM on the calls of jwe.py *)
Lemma log2_bytes : forall k n, 0 <= n < 256 ^ k -> 0 < k -> Z.log2 n / 8 + 1 <= k.
Proof.
  intros k n N K. destruct (Z.eq_dec n 0) as [->|]; [cbn; lia|]. assert (Z.log2 n < 8 * k); [|lia]. apply Z.log2_lt_pow2; [lia|].
  rewrite Z.pow_mul_r by lia. apply N.
Qed.

(** The AES key: a key of at most 32 octets becomes one of 16 or 32. *)
Lemma gcm_key : forall key, bytes_ok key = true -> (length key <= 32)%nat -> let k := long_to_bytes (be2z key) 16 in
  (length k = 16 \/ length k = 32)%nat /\ aes_keysize k = true /\ bytes_ok k = true.
Proof.
  intros key B L. cbv zeta. assert (K : (length (long_to_bytes (be2z key) 16) = 16 \/ length (long_to_bytes (be2z key) 16) = 32)%nat).
  { unfold long_to_bytes. rewrite z2be_length. pose proof (be2z_bound key B) as H. assert (N : 0 <= be2z key < 256 ^ 32).
    { split; [lia|]. eapply Z.lt_le_trans; [apply H|]. apply Z.pow_le_mono_r; lia. }
    pose proof (log2_bytes 32 _ N ltac:(lia)) as Q. pose proof (Z.log2_nonneg (be2z key)) as Q2.
    assert (D0 : 0 <= Z.log2 (be2z key) / 8) by (apply Z.div_pos; lia). set (m := Z.log2 (be2z key) / 8) in *. clearbody m.
    assert (E : (m + 1 + 16 - 1) / 16 = 1 \/ (m + 1 + 16 - 1) / 16 = 2) by lia. destruct E as [-> | ->]; [left|right]; reflexivity. }
  split; [exact K|]. split; [unfold aes_keysize; destruct K as [-> | ->]; reflexivity|]. unfold long_to_bytes. apply z2be_ok.
Qed.

Section GcmUse.
Variable P : prims.
Hypothesis AES : aes_law P.

Lemma gcm_new_inv : forall k g, gcm_new P k = Ok g -> aes_keysize (long_to_bytes k 16) = true /\ gcm_for P (long_to_bytes k 16) g /\ g_prev g = None.
Proof.
  intros k g H. destruct (aes_keysize (long_to_bytes k 16)) eqn:KS.
  - assert (B : bytes_ok (long_to_bytes k 16) = true) by (unfold long_to_bytes; apply z2be_ok).
    destruct (gcm_new_ok P AES _ KS B k eq_refl) as (g' & N & G). rewrite N in H. injection H as <-. split; [reflexivity|]. exact G.
  - unfold gcm_new, change_key in H. rewrite KS in H. discriminate.
Qed.

Lemma gctr_inv : forall g iv text c, gctr P g iv text = Ok c -> Z.of_nat (length text) <= 16 * 2 ^ 32.
Proof.
  intros g iv text c H. unfold gctr in H. destruct (Nat.ltb 0 (length text)) eqn:E; [|apply Nat.ltb_ge in E; lia].
  unfold ctr_crypt in H. destruct (aes_keysize (g_key g)); [|discriminate]. cbn [negb] in H.
  destruct (2 ^ 32 <? _) eqn:F; [discriminate|]. rewrite pad16_zpad in F. apply Z.ltb_ge in F.
  assert (Z.of_nat (length text) <= Z.of_nat (length (zpad text))) by (unfold zpad; rewrite app_length; lia). lia.
Qed.

Lemma times_nonneg : forall g h v, g_table g = table h -> 0 <= v -> 0 <= times_auth_key g v.
Proof. intros g h v T V. unfold times_auth_key. rewrite T, times_table by exact V. apply bmul_nonneg. Qed.

Lemma blocks16_n_ok : forall n s, bytes_ok s = true -> Forall (fun b => bytes_ok b = true) (blocks16_n n s).
Proof.
  induction n as [|n IH]; intros s B; [constructor|]. cbn [blocks16_n]. constructor; [apply bytes_ok_firstn; exact B|apply IH; apply bytes_ok_skipn; exact B].
Qed.

Lemma ghash_nonneg : forall g h aad txt, g_table g = table h -> bytes_ok aad = true -> bytes_ok txt = true -> 0 <= ghash g aad txt.
Proof.
  intros g h aad txt T BA BT. unfold ghash. apply (times_nonneg g h); [exact T|]. apply Z.lxor_nonneg. split; intro; [|].
  - apply Z.lor_nonneg. split; [apply Z.shiftl_nonneg; lia|lia].
  - assert (F : Forall (fun b => bytes_ok b = true) (blocks16 (pad16 aad ++ pad16 txt))).
    { unfold blocks16. apply blocks16_n_ok. rewrite !pad16_zpad, bytes_ok_app, !zpad_ok, BA, BT. reflexivity. }
    assert (X : forall bl a, 0 <= a -> Forall (fun b => bytes_ok b = true) bl -> 0 <= fold_left (fun tag b => times_auth_key g (Z.lxor tag (be2z b))) bl a).
    { clear - T. induction bl as [|b bl IH]; intros a A F; [exact A|]. inversion_clear F. cbn [fold_left]. apply IH; [|assumption].
      apply (times_nonneg g h); [exact T|]. apply Z.lxor_nonneg. pose proof (be2z_bound b H). split; intro; lia. }
    apply X; [lia|exact F].
Qed.

Lemma long_to_bytes_be2z : forall n, 0 <= n -> be2z (long_to_bytes n 1) = n.
Proof.
  intros n N. unfold long_to_bytes. apply be2z_z2be. rewrite Z.div_1_r, Z.mul_1_r.
  pose proof (Z.log2_nonneg n). assert (D0 : 0 <= Z.log2 n / 8) by (apply Z.div_pos; lia). replace (Z.log2 n / 8 + 1 + 1 - 1) with (Z.log2 n / 8 + 1) by lia.
  split; [exact N|]. rewrite Z2Nat.id by lia. destruct (Z.eq_dec n 0) as [->|NZ]; [cbn; lia|].
  pose proof (proj2 (Z.log2_spec n ltac:(lia))) as S. eapply Z.lt_le_trans; [exact S|].
  change 256 with (2 ^ 8). rewrite <- Z.pow_mul_r by lia. apply Z.pow_le_mono_r; lia.
Qed.

(** What one encryption yields is undone by a fresh instance of the same key. *)
Lemma gcm_once : forall k iv pt aad g ct tag, gcm_new P k = Ok g -> bytes_ok pt = true -> bytes_ok aad = true -> 0 <= iv ->
  snd (gcm_encrypt P g iv pt aad) = Ok (ct, tag) ->
  bytes_ok ct = true /\ length ct = length pt /\ 0 <= tag < 2 ^ 128 /\ gcm_decrypt P g iv ct tag aad = Ok pt.
Proof.
  intros k iv pt aad g ct tag N BP BA I H. destruct (gcm_new_inv k g N) as (KS & G & PV).
  assert (BK : bytes_ok (long_to_bytes k 16) = true) by (unfold long_to_bytes; apply z2be_ok).
  unfold gcm_encrypt in H. destruct (iv <? 2 ^ 96) eqn:IV; [|discriminate]. cbn [negb] in H. rewrite PV in H. cbn [snd] in H.
  set (g1 := {| g_prev := Some iv; g_key := g_key g; g_ecb := g_ecb g; g_auth := g_auth g; g_table := g_table g |}) in *.
  destruct (gctr P g1 iv pt) as [c|] eqn:C; [|discriminate]. cbn [bind] in H. pose proof (gctr_inv _ _ _ _ C) as L.
  destruct G as (G1 & G2 & G3 & G4). apply Z.ltb_lt in IV. rewrite (gctr_ok P AES _ KS BK g1 iv pt G1 (conj I IV) BP L) in C. apply Ok_inj in C. subst c.
  assert (LI : length (z2be 12 iv) = 12%nat) by apply z2be_length. assert (BI : bytes_ok (z2be 12 iv) = true) by apply z2be_ok.
  destruct (gcm_c_props P AES _ KS BK (z2be 12 iv) pt LI BI BP) as (C1 & C2 & C3). set (c := gcm_c P (long_to_bytes k 16) (z2be 12 iv) pt) in *.
  cbv zeta in H. destruct (Z.lxor (ghash g1 aad c) (tag_mask P g1 iv) <? 2 ^ 128) eqn:TG; cbn [negb] in H; [|discriminate]. apply Ok_inj in H. apply pair_equal_spec in H. destruct H as [<- <-].
  split; [exact C2|]. split; [exact C1|].
  assert (T0 : 0 <= Z.lxor (ghash g1 aad c) (tag_mask P g1 iv)).
  { apply Z.lxor_nonneg. split; intros _.
    - unfold g1 at 1. rewrite tag_mask_ok with (key := long_to_bytes k 16); [|exact G2|split; assumption].
      pose proof (ctr_in_block P AES _ KS BK (z2be 12 iv) 1 LI BI) as X. apply block_bound. exact X.
    - apply (ghash_nonneg g1 (g_auth g)); assumption. }
  split; [split; [exact T0|apply Z.ltb_lt; exact TG]|].
  unfold gcm_decrypt. replace (iv <? 2 ^ 96) with true by (symmetry; apply Z.ltb_lt; exact IV). rewrite TG. cbn [negb].
  change (ghash g aad c) with (ghash g1 aad c). change (tag_mask P g iv) with (tag_mask P g1 iv). rewrite Z.eqb_refl. cbn [negb].
  rewrite (gctr_ok P AES _ KS BK g iv c G1 (conj I IV) C2) by lia. fold c. rewrite C3. reflexivity.
Qed.
End GcmUse.

(** ** C49 *)
Lemma in_texts_str : forall e l, in_texts (VStr e) l = existsb (zs_eqb e) l.
Proof. reflexivity. Qed.
Lemma in_texts_In : forall v l, in_texts v l = true <-> exists t, In t l /\ v = VStr t.
Proof.
  intros v l. unfold in_texts. rewrite existsb_exists. split; intros (t & I & E); exists t; (split; [exact I|]).
  - destruct v; try discriminate. cbn in E. apply zs_eqb_eq in E. congruence.
  - subst v. cbn. apply zs_eqb_refl.
Qed.

(** enc_setup with both values given: no choice is left. *)
Lemma generate_given : forall R enc cek iv, cek <> [] -> iv <> [] -> generate_key_and_iv R enc cek iv = Ok (cek, iv).
Proof. intros R enc [|c cek] [|i iv] C I; try congruence. reflexivity. Qed.

Lemma cbc_key_sizes : forall P key iv aad pt ct tag, aes_cbc_hmac_encrypt P key iv aad pt = Ok (ct, tag) ->
  (length key = 32 \/ length key = 48 \/ length key = 64)%nat /\ length iv = 16%nat /\ 8 * Z.of_nat (length aad) < 2 ^ 64.
Proof.
  intros P key iv aad pt ct tag H. unfold aes_cbc_hmac_encrypt, get_keys_seclen_dgst in H. destruct (Nat.eqb (length iv) 16) eqn:I; [|discriminate]. cbn [negb] in H.
  apply Nat.eqb_eq in I. unfold LENMET in H.
  assert (K : (length key = 32 \/ length key = 48 \/ length key = 64)%nat).
  { destruct (Nat.eqb (length key) 32) eqn:K1; [apply Nat.eqb_eq in K1; auto|]. destruct (Nat.eqb (length key) 48) eqn:K2; [apply Nat.eqb_eq in K2; auto|].
    destruct (Nat.eqb (length key) 64) eqn:K3; [apply Nat.eqb_eq in K3; auto|discriminate]. }
  split; [exact K|]. split; [exact I|].
  destruct (if Nat.eqb (length key) 32 then _ else _) as [[sl dg]|]; [|discriminate]. cbn [bind] in H.
  destruct (cbc_encrypt P _ iv (pkcs5pad pt)) as [c|]; [|discriminate]. cbn [bind] in H. unfold pack_Q in H.
  destruct (8 * Z.of_nat (length aad) <? 2 ^ 64) eqn:A; [apply Z.ltb_lt in A; exact A|]. rewrite andb_false_r in H. discriminate.
Qed.

Section Content.
Variable P : prims.
Hypothesis AES : aes_law P.

(** What enc_setup produced, decryption with the same enc, key, iv and aad undoes. *)
Theorem content_inverse : forall R enc msg aad key iv ct tag k, key <> [] -> iv <> [] -> bytes_ok key = true -> bytes_ok iv = true -> bytes_ok msg = true -> bytes_ok aad = true ->
  enc_setup P R enc msg aad key iv = Ok (ct, tag, k) -> k = key /\ content_decrypt P enc key ct aad iv tag = Ok msg.
Proof.
  intros R enc msg aad key iv ct tag k K I BK BI BM BA H. unfold enc_setup, content_decrypt in *. rewrite generate_given in H by assumption. cbn [bind] in H.
  destruct (in_texts enc GCM_ENCS) eqn:G; [|destruct (in_texts enc CBC_ENCS) eqn:C; [|discriminate]].
  - destruct (gcm_new P (be2z key)) as [g|] eqn:N; [|discriminate]. cbn [bind] in *. destruct (snd (gcm_encrypt P g (be2z iv) msg aad)) as [[c t]|] eqn:E; [|discriminate].
    cbn [bind] in H. apply Ok_inj in H. apply pair_equal_spec in H. destruct H as [H <-]. apply pair_equal_spec in H. destruct H as [<- <-].
    destruct (gcm_once P AES _ _ _ _ _ _ _ N BM BA (proj1 (be2z_bound iv BI)) E) as (_ & _ & T & D). split; [reflexivity|]. rewrite long_to_bytes_be2z by apply T. exact D.
  - destruct (aes_cbc_hmac_encrypt P key iv aad msg) as [[c t]|] eqn:E; [|discriminate]. cbn [bind] in H. apply Ok_inj in H. apply pair_equal_spec in H. destruct H as [H <-]. apply pair_equal_spec in H. destruct H as [<- <-].
    split; [reflexivity|]. destruct (cbc_key_sizes _ _ _ _ _ _ _ E) as (K1 & K2 & K3).
    destruct (cbc_hmac_round P key iv aad msg AES K1 K2 BK BI BM K3) as (c' & t' & R1 & _ & _ & R2). rewrite R1 in E. injection E as -> ->. exact R2.
Qed.

Lemma content_ok : hmac_law P -> forall R enc msg aad key iv ct tag k, key <> [] -> iv <> [] -> bytes_ok key = true -> bytes_ok iv = true -> bytes_ok msg = true -> bytes_ok aad = true ->
  enc_setup P R enc msg aad key iv = Ok (ct, tag, k) -> bytes_ok ct = true /\ bytes_ok tag = true.
Proof.
  intros HM R enc msg aad key iv ct tag k K I BK BI BM BA H. unfold enc_setup in *. rewrite generate_given in H by assumption. cbn [bind] in H.
  destruct (in_texts enc GCM_ENCS) eqn:G; [|destruct (in_texts enc CBC_ENCS) eqn:C; [|discriminate]].
  - destruct (gcm_new P (be2z key)) as [g|] eqn:N; [|discriminate]. cbn [bind] in *. destruct (snd (gcm_encrypt P g (be2z iv) msg aad)) as [[c t]|] eqn:E; [|discriminate].
    cbn [bind] in H. apply Ok_inj in H. apply pair_equal_spec in H. destruct H as [H <-]. apply pair_equal_spec in H. destruct H as [<- <-].
    destruct (gcm_once P AES _ _ _ _ _ _ _ N BM BA (proj1 (be2z_bound iv BI)) E) as (C1 & _). split; [exact C1|]. unfold long_to_bytes. apply z2be_ok.
  - destruct (aes_cbc_hmac_encrypt P key iv aad msg) as [[c t]|] eqn:E; [|discriminate]. cbn [bind] in H. apply Ok_inj in H. apply pair_equal_spec in H. destruct H as [H <-]. apply pair_equal_spec in H. destruct H as [<- <-].
    destruct (cbc_key_sizes _ _ _ _ _ _ _ E) as (K1 & K2 & K3).
    destruct (cbc_hmac_round P key iv aad msg AES K1 K2 BK BI BM K3) as (c' & t' & R1 & R3 & _ & R2). rewrite R1 in E. injection E as -> ->. split; [exact R3|].
    destruct (get_keys_ok key iv K1 K2 BK) as (ka & ke & sl & dg & GK & _ & _ & _ & _ & _ & BKA & _).
    unfold aes_cbc_hmac_encrypt in R1. rewrite GK in R1. cbn [bind] in R1. destruct (cbc_encrypt P ke iv (pkcs5pad msg)) as [c2|]; [|discriminate]. cbn [bind] in R1.
    rewrite pack_Q_ok in R1 by lia. cbn [bind] in R1. apply Ok_inj in R1. apply pair_equal_spec in R1. destruct R1 as [<- <-]. apply bytes_ok_firstn. apply HM; [exact BKA|]. rewrite !bytes_ok_app, BA, BI, R3, z2be_ok. reflexivity.
Qed.

(** With key and IV of the right sizes it always succeeds. *)
Theorem content_total : forall R e kl il msg aad key iv, enc_sizes e = Some (kl, il) -> length key = kl -> length iv = il ->
  bytes_ok key = true -> bytes_ok iv = true -> bytes_ok msg = true -> bytes_ok aad = true ->
  Z.of_nat (length msg) <= 16 * 2 ^ 32 -> 8 * Z.of_nat (length aad) < 2 ^ 64 ->
  exists ct tag, enc_setup P R (VStr e) msg aad key iv = Ok (ct, tag, key) /\ content_decrypt P (VStr e) key ct aad iv tag = Ok msg.
Proof.
  intros R e kl il msg aad key iv S LK LI BK BI BM BA LM LA.
  assert (NK : key <> []) by (intros ->; unfold enc_sizes in S; repeat match type of S with context [if ?b then _ else _] => destruct b end; inversion S; subst; discriminate).
  assert (NI : iv <> []) by (intros ->; unfold enc_sizes in S; repeat match type of S with context [if ?b then _ else _] => destruct b end; inversion S; subst; discriminate).
  assert (X : exists ct tag, enc_setup P R (VStr e) msg aad key iv = Ok (ct, tag, key)).
  2: { destruct X as (ct & tag & X). exists ct, tag. split; [exact X|]. apply (content_inverse _ _ _ _ _ _ _ _ _ NK NI BK BI BM BA X). }
  unfold enc_setup. rewrite generate_given by assumption. cbn [bind].
  assert (C : (in_texts (VStr e) GCM_ENCS = true /\ (kl <= 32)%nat /\ il = 12%nat) \/
              (in_texts (VStr e) GCM_ENCS = false /\ in_texts (VStr e) CBC_ENCS = true /\ (kl = 32 \/ kl = 48 \/ kl = 64)%nat /\ il = 16%nat)).
  { unfold enc_sizes in S. 
    repeat match type of S with (if zs_eqb ?a ?b then _ else _) = _ => let E := fresh "E" in destruct (zs_eqb a b) eqn:E; [apply zs_eqb_eq in E; subst e; injection S as <- <-; first [left; split; [reflexivity|split; lia]|right; split; [reflexivity|split; [reflexivity|split; [lia|reflexivity]]]]|] end.
    discriminate. }
  destruct C as [(C1 & C2 & C3)|(C1 & C2 & C3 & C4)].
  - rewrite C1. destruct (gcm_key key BK ltac:(lia)) as (_ & KS & BK').
    destruct (gcm_new_ok P AES _ KS BK' (be2z key) eq_refl) as (g & N & G & PV). rewrite N. cbn [bind].
    assert (I : 0 <= be2z iv < 2 ^ 96) by (pose proof (be2z_bound iv BI) as B; rewrite LI, C3 in B; exact B).
    destruct (gcm_encrypt_ok P AES _ KS BK' g (be2z iv) msg aad G I ltac:(rewrite PV; discriminate) BM BA LM LA) as (g' & E & _). rewrite E. cbn [snd bind].
    eexists _, _. reflexivity.
  - rewrite C1, C2. destruct (cbc_hmac_round P key iv aad msg AES ltac:(lia) ltac:(lia) BK BI BM LA) as (ct & tag & E & _). rewrite E. cbn [bind]. eexists _, _. reflexivity.
Qed.

(** ** The tag of the GCM algorithms: the shortest big-endian form of a 128-bit number *)
Lemma long_to_bytes_1 : forall n, 0 <= n < 2 ^ 128 -> (1 <= length (long_to_bytes n 1) <= 16)%nat /\ be2z (long_to_bytes n 1) = n /\
  (hd 0 (long_to_bytes n 1) = 0 -> n = 0).
Proof.
  intros n N. assert (L : length (long_to_bytes n 1) = Z.to_nat (Z.log2 n / 8 + 1)).
  { unfold long_to_bytes. rewrite z2be_length, Z.div_1_r, Z.mul_1_r. f_equal. lia. }
  pose proof (Z.log2_nonneg n). assert (D0 : 0 <= Z.log2 n / 8) by (apply Z.div_pos; lia).
  change (2 ^ 128) with (256 ^ 16) in N. pose proof (log2_bytes 16 n N ltac:(lia)).
  split; [lia|]. assert (E := long_to_bytes_be2z n ltac:(lia)). split; [exact E|]. intro HZ.
  destruct (Z.eq_dec n 0) as [->|NZ]; [reflexivity|exfalso].
  assert (B : bytes_ok (long_to_bytes n 1) = true) by (unfold long_to_bytes; apply z2be_ok).
  destruct (long_to_bytes n 1) as [|b r] eqn:F; [cbn in L; lia|]. cbn [hd] in HZ. subst b.
  change (0 :: r) with ([0] ++ r) in E. rewrite be2z_app in E. change (be2z [0]) with 0 in E. rewrite Z.mul_0_l, Z.add_0_l in E.
  change (0 :: r) with ([0] ++ r) in B. rewrite bytes_ok_app in B. apply andb_true_iff in B. destruct B as [_ B]. pose proof (be2z_bound r B) as Q. cbn [length] in L.
  assert (LR : Z.of_nat (length r) = Z.log2 n / 8) by lia. rewrite E, LR in Q. pose proof (proj1 (Z.log2_spec n ltac:(lia))) as S.
  assert (256 ^ (Z.log2 n / 8) <= 2 ^ Z.log2 n).
  { change 256 with (2 ^ 8). rewrite <- Z.pow_mul_r by lia. apply Z.pow_le_mono_r; lia. }
  lia.
Qed.

Theorem gcm_tag_form : forall R enc msg aad key iv ct tag k, in_texts enc GCM_ENCS = true -> bytes_ok msg = true -> bytes_ok aad = true ->
  bytes_ok key = true -> bytes_ok iv = true -> key <> [] -> iv <> [] ->
  8 * Z.of_nat (length aad) < 2 ^ 64 ->
  enc_setup P R enc msg aad key iv = Ok (ct, tag, k) ->
  let t := gcm_t P (long_to_bytes (be2z key) 16) (z2be 12 (be2z iv)) aad ct in
  ct = gcm_c P (long_to_bytes (be2z key) 16) (z2be 12 (be2z iv)) msg /\
  be2z tag = t /\ (1 <= length tag <= 16)%nat /\ (hd 0 tag = 0 -> t = 0).
Proof.
  intros R enc msg aad key iv ct tag k G BM BA BK BI NK NI LA H. unfold enc_setup in H. rewrite generate_given in H by assumption. cbn [bind] in H. rewrite G in H.
  destruct (gcm_new P (be2z key)) as [g|] eqn:N; [|discriminate]. cbn [bind] in H. destruct (snd (gcm_encrypt P g (be2z iv) msg aad)) as [[c t]|] eqn:E; [|discriminate].
  cbn [bind] in H. apply Ok_inj in H. apply pair_equal_spec in H. destruct H as [H _]. apply pair_equal_spec in H. destruct H as [<- <-].
  destruct (gcm_new_inv P AES _ g N) as (KS & GF & PV). destruct (gcm_once P AES _ _ _ _ _ _ _ N BM BA (proj1 (be2z_bound iv BI)) E) as (_ & _ & T & D).
  assert (BK' : bytes_ok (long_to_bytes (be2z key) 16) = true) by (unfold long_to_bytes; apply z2be_ok).
  assert (I : 0 <= be2z iv < 2 ^ 96).
  { split; [apply be2z_bound; exact BI|]. unfold gcm_encrypt in E. destruct (be2z iv <? 2 ^ 96) eqn:F; [apply Z.ltb_lt; exact F|discriminate]. }
  assert (LM : Z.of_nat (length msg) <= 16 * 2 ^ 32).
  { unfold gcm_encrypt in E. destruct (be2z iv <? 2 ^ 96); [|discriminate]. cbn [negb] in E. rewrite PV in E. cbn [snd] in E. destruct (gctr P _ _ msg) as [c'|] eqn:GC; [|discriminate]. exact (gctr_inv _ _ _ _ _ GC). }
  destruct (gcm_encrypt_ok P AES _ KS BK' g (be2z iv) msg aad GF I ltac:(rewrite PV; discriminate) BM BA LM LA) as (g' & E' & _). rewrite E' in E. cbn [snd] in E.
  apply Ok_inj in E. apply pair_equal_spec in E. destruct E as [<- <-]. cbv zeta. destruct (long_to_bytes_1 _ T) as (L1 & L2 & L3). repeat split; try apply L1; assumption.
Qed.
End Content.
