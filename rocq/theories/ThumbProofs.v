(** * Thumbprints tell keys apart *)
From Coq Require Import ZArith List Bool Lia.
From Verif Require Import Base BaseProofs Prims PvalEq Extra ExtraProofs Utf8 Codec CodecProofs Json JsonProofs Elliptic Ecc Jwk Jwt JwtProofs JwkProofs JwkProofs2.
Import ListNotations.
Open Scope Z_scope.

(** What a key is the key of. *)
Inductive ident : Type := IRsa (n e : Z) | IOct (secret : bytes) | IEc (c : curve) (x y : Z).
Inductive identified : jwk -> ident -> Prop :=
| id_rsa : forall k key nums n e, k_data k = DRsa key nums -> otruthy key = true -> k_kty k = VStr (lit "RSA") ->
    num nums (lit "n") = VInt n -> num nums (lit "e") = VInt e -> 0 < n -> 0 < e -> identified k (IRsa n e)
| id_oct : forall k key kk, k_data k = DSym (VBytes key) kk -> bytes_ok key = true -> k_kty k = VStr (lit "oct") -> identified k (IOct key)
| id_ec : forall k key crv x y d c, k_data k = DEc key crv (VInt x) (VInt y) d (OCurve c) -> named c -> 0 < x -> 0 < y -> identified k (IEc c x y).

(** The text hashed for it. *)
Inductive hashed : ident -> bytes -> Prop :=
| h_rsa : forall n e tn te, 0 < n -> 0 < e -> long_to_base64 n = Ok tn -> long_to_base64 e = Ok te -> hashed (IRsa n e) (rsa_thumb_text te tn)
| h_oct : forall s, bytes_ok s = true -> hashed (IOct s) (oct_thumb_text (b64e s))
| h_ec : forall c x y tx ty, named c -> 0 < x -> 0 < y -> long_to_base64 x = Ok tx -> long_to_base64 y = Ok ty -> hashed (IEc c x y) (ec_thumb_text (lit "P-" ++ dec (c_bits c)) tx ty).

Lemma has_text : forall P k i name h, identified k i -> In (name, h) [(lit "SHA-256", SHA256); (lit "SHA-384", SHA384); (lit "SHA-512", SHA512)] ->
  exists t, hashed i t /\ thumbprint P k name = Ok (p_hash P h t).
Proof.
  intros P k i name h I N. destruct I as [k key nums n e D T Y Hn He Pn Pe|k key kk D O Y|k key crv x y d c D Nc X Y].
  - destruct (num_b64 n Pn) as (tn & _ & Bn & _). destruct (num_b64 e Pe) as (te & _ & Be & _). exists (rsa_thumb_text te tn). split; [constructor; assumption|]. eapply rsa_thumbprint; eassumption.
  - exists (oct_thumb_text (b64e key)). split; [constructor; assumption|]. eapply sym_thumbprint; eassumption.
  - destruct (num_b64 x X) as (tx & _ & Bx & _). destruct (num_b64 y Y) as (ty & _ & By & _). exists (ec_thumb_text (lit "P-" ++ dec (c_bits c)) tx ty). split; [constructor; assumption|]. eapply ec_thumbprint; eassumption.
Qed.

Lemma quote_split : forall a b r s, forallb b64url_char a = true -> forallb b64url_char b = true -> a ++ 34 :: r = b ++ 34 :: s -> a = b /\ r = s.
Proof.
  induction a as [|x a IH]; intros [|y b] r s A B H; cbn [app forallb] in *.
  - injection H as H. split; [reflexivity|exact H].
  - injection H as H0 _. subst y. discriminate B.
  - injection H as H0 _. subst x. discriminate A.
  - injection H as -> H. apply andb_true_iff in A, B. destruct (IH b r s (proj2 A) (proj2 B) H) as [-> ->]. split; reflexivity.
Qed.
Lemma num_inj : forall a b t, 0 < a -> 0 < b -> long_to_base64 a = Ok t -> long_to_base64 b = Ok t -> a = b.
Proof.
  intros a b t A B HA HB. apply base64_to_long_long_to_base64 in HA, HB; try lia. rewrite HA in HB. apply Ok_inj in HB. exact HB.
Qed.
Lemma name_chars : forall c, named c -> forallb b64url_char (lit "P-" ++ dec (c_bits c)) = true.
Proof.
  intros c Nc. unfold named, by_name in Nc. set (nm := lit "P-" ++ dec (c_bits c)) in *. destruct (zs_eqb nm (lit "P-256")) eqn:E1; [apply zs_eqb_eq in E1; rewrite E1; reflexivity|].
  destruct (zs_eqb nm (lit "P-384")) eqn:E2; [apply zs_eqb_eq in E2; rewrite E2; reflexivity|].
  destruct (zs_eqb nm (lit "P-521")) eqn:E3; [apply zs_eqb_eq in E3; rewrite E3; reflexivity|discriminate Nc].
Qed.

Lemma text_inj' : forall i j s t, hashed i s -> hashed j t -> s = t -> i = j.
Proof.
  intros i j s t HI HJ T. destruct HI as [n e tn te Pn Pe Bn Be|s O|c x y tx ty Nc X Y Bx By]; destruct HJ as [n' e' tn' te' Pn' Pe' Bn' Be'|s' O'|c' x' y' tx' ty' Nc' X' Y' Bx' By']; try discriminate T.
  - unfold rsa_thumb_text in T. apply app_inv_head in T. apply quote_split in T; [|eapply b64_chars_of_num; [|eassumption]; assumption|eapply b64_chars_of_num; [|eassumption]; assumption]. destruct T as [-> T].
    assert (T' : tn ++ 34 :: [125] = tn' ++ 34 :: [125]) by (apply (app_inv_head (tl (lit """,""kty"":""RSA"",""n"":"""))); exact T). apply quote_split in T'; [|eapply b64_chars_of_num; [|eassumption]; assumption|eapply b64_chars_of_num; [|eassumption]; assumption].
    destruct T' as [-> _]. f_equal; eapply num_inj; try eassumption; assumption.
  - unfold oct_thumb_text in T. apply app_inv_head in T. apply quote_split in T; [|apply b64e_chars; assumption|apply b64e_chars; assumption]. destruct T as [T _]. f_equal. apply b64e_inj; assumption.
  - unfold ec_thumb_text in T. apply app_inv_head in T. apply quote_split in T; [|apply name_chars; assumption|apply name_chars; assumption]. destruct T as [EN T].
    assert (T' : tx ++ lit """,""y"":""" ++ ty ++ lit """}" = tx' ++ lit """,""y"":""" ++ ty' ++ lit """}") by (apply (app_inv_head (tl (lit """,""x"":"""))); exact T).
    apply quote_split in T'; [|eapply b64_chars_of_num; [|eassumption]; assumption|eapply b64_chars_of_num; [|eassumption]; assumption]. destruct T' as [-> T'].
    assert (T2 : ty ++ 34 :: [125] = ty' ++ 34 :: [125]) by (apply (app_inv_head (tl (lit """,""y"":"""))); exact T'). apply quote_split in T2; [|eapply b64_chars_of_num; [|eassumption]; assumption|eapply b64_chars_of_num; [|eassumption]; assumption].
    destruct T2 as [-> _]. assert (c = c') by (unfold named in Nc, Nc'; rewrite <- EN, Nc in Nc'; apply Ok_inj in Nc'; exact Nc'). subst c'. f_equal; eapply num_inj; try eassumption; assumption.
Qed.
Lemma text_inj : forall i j t, hashed i t -> hashed j t -> i = j.
Proof. intros i j t A B. exact (text_inj' i j t t A B eq_refl). Qed.

(** Two keys with one thumbprint are one key, or their texts are a collision of the hash function. *)
Theorem thumbprint_identifies : forall P a b i j name h, identified a i -> identified b j ->
  In (name, h) [(lit "SHA-256", SHA256); (lit "SHA-384", SHA384); (lit "SHA-512", SHA512)] -> thumbprint P a name = thumbprint P b name ->
  i = j \/ exists s t, hashed i s /\ hashed j t /\ s <> t /\ p_hash P h s = p_hash P h t.
Proof.
  intros P a b i j name h A B N E. destruct (has_text P a i name h A N) as (s & HS & TS). destruct (has_text P b j name h B N) as (t & HT & TT). rewrite TS, TT in E. apply Ok_inj in E.
  destruct (list_eq_dec Z.eq_dec s t) as [->|D]; [left; eapply text_inj; eassumption|right; exists s, t; repeat split; assumption].
Qed.

Lemma hashed_ok : forall i t, hashed i t -> bytes_ok t = true.
Proof.
  assert (CH : forall s, forallb b64url_char s = true -> bytes_ok s = true) by (intros s H; apply ascii_bytes; apply b64url_ascii; exact H).
  intros i t H. destruct H as [n e tn te Pn Pe Bn Be|s O|c x y tx ty Nc X Y Bx By]; unfold rsa_thumb_text, oct_thumb_text, ec_thumb_text, bytes_ok in *; rewrite !forallb_app.
  - rewrite (CH te), (CH tn) by (eapply b64_chars_of_num; [|eassumption]; assumption). reflexivity.
  - rewrite (CH (b64e s)) by (apply b64e_chars; assumption). reflexivity.
  - rewrite (CH tx), (CH ty) by (eapply b64_chars_of_num; [|eassumption]; assumption). rewrite <- forallb_app. rewrite (CH (lit "P-" ++ dec (c_bits c))) by (apply name_chars; assumption). reflexivity.
Qed.

(** So with the names add_kid makes. *)
Theorem kid_identifies : forall P, hash_law P -> forall a b i j a' b', identified a i -> identified b j ->
  add_kid P a = Ok a' -> add_kid P b = Ok b' -> k_kid a' = k_kid b' ->
  i = j \/ exists s t, hashed i s /\ hashed j t /\ s <> t /\ p_hash P SHA256 s = p_hash P SHA256 t.
Proof.
  intros P HL a b i j a' b' A B KA KB E. assert (N : In (lit "SHA-256", SHA256) [(lit "SHA-256", SHA256); (lit "SHA-384", SHA384); (lit "SHA-512", SHA512)]) by (left; reflexivity).
  unfold add_kid in KA, KB. destruct (has_text P a i _ _ A N) as (s & HS & TS). destruct (has_text P b j _ _ B N) as (t & HT & TT). rewrite TS in KA. rewrite TT in KB. cbn [bind] in KA, KB.
  apply Ok_inj in KA, KB. subst a' b'. cbn [k_kid set_hash set_kid] in E. injection E as E.
  apply b64e_inj in E; [|apply HL; eapply hashed_ok; eassumption|apply HL; eapply hashed_ok; eassumption].
  destruct (list_eq_dec Z.eq_dec s t) as [->|D]; [left; eapply text_inj; eassumption|right; exists s, t; repeat split; assumption].
Qed.
