(** * Which keys have a thumbprint (jwk.py:364-380) *)
From Coq Require Import ZArith List Bool Lia ZifyBool.
From Verif Require Import Base BaseProofs Utf8 Codec CodecProofs Json JsonProofs Jwt JwtProofs Prims Ecc Jwk JwkProofs JwkProofs2 JweProofs17 Writable.
Import ListNotations.
Open Scope Z_scope.

Definition texts (d : dict) (names : list ustr) : Prop := forall n v, In n names -> dget d n = Some v -> exists t, v = VStr t.
Lemma allp_ascii : forall s, allp s = true -> ascii s = true.
Proof. intros s H. unfold allp, ascii in *. rewrite forallb_forall in *. intros x I. specialize (H x I). unfold printable in H. lia. Qed.
Lemma members_ok : forall d names, texts d names -> (forall n, In n names -> ascii n = true) -> exists ms, members_text d names = Ok ms /\ forall m, In m ms -> ascii m = true.
Proof.
  intro d. induction names as [|n names IH]; intros T A; [exists []; split; [reflexivity|intros m []]|]. cbn [members_text].
  destruct IH as (ms & E & M); [intros m v I; apply T; right; exact I|intros m I; apply A; right; exact I|].
  destruct (dget d n) as [v|] eqn:G; [|exists ms; split; assumption]. destruct (T n v (or_introl eq_refl) G) as [t ->]. cbn [dumps bind]. rewrite E. cbn [bind]. eexists. split; [reflexivity|].
  intros m [<-|I]; [|exact (M m I)]. change (34 :: n ++ [34; 58] ++ esc_str t) with ([34] ++ n ++ [34; 58] ++ esc_str t). rewrite !ascii_app, (A n (or_introl eq_refl)), (allp_ascii _ (esc_str_p t)). reflexivity.
Qed.
Lemma join_ascii : forall ms, (forall m, In m ms -> ascii m = true) -> ascii (join 44 ms) = true.
Proof.
  induction ms as [|m ms IH]; intro H; [reflexivity|]. cbn [join]. destruct ms as [|m2 ms]; [apply H; left; reflexivity|].
  change (m ++ 44 :: join 44 (m2 :: ms)) with (m ++ [44] ++ join 44 (m2 :: ms)). rewrite !ascii_app, (H m (or_introl eq_refl)), IH; [reflexivity|]. intros x I. apply H. right. exact I.
Qed.
Lemma required_ascii : forall k n, In n (required k) -> ascii n = true.
Proof. intros k n I. unfold required in I. destruct (k_data k); cbn [In] in I; repeat (destruct I as [<-|I]; [reflexivity|]); destruct I. Qed.

Lemma num_text : forall v t, num_to_base64 v = Ok t -> exists s, t = VStr s.
Proof. intros v t H. unfold num_to_base64 in H. destruct (as_int v); [|discriminate H]. destruct (long_to_base64 z); [|discriminate H]. injection H as <-. eauto. Qed.
Lemma octets_byte : forall l b, octets l = Ok b -> bytes_ok b = true.
Proof.
  induction l as [|v l IH]; intros b H; [injection H as <-; reflexivity|]. cbn [octets] in H. destruct (as_int v) as [z|]; [|discriminate H]. destruct (is_byte z) eqn:B; [|discriminate H].
  destruct (octets l) as [t|]; [cbn [bind] in H|discriminate H]. injection H as <-. unfold bytes_ok in *. cbn [forallb]. rewrite B. exact (IH _ eq_refl).
Qed.
Lemma repeat_bytes : forall n, bytes_ok (repeat 0 n) = true.
Proof. induction n; [reflexivity|exact IHn]. Qed.
Lemma py_bytes_ok : forall v b, (forall s, v = VBytes s -> bytes_ok s = true) -> py_bytes v = Ok b -> bytes_ok b = true.
Proof.
  intros v b W H. destruct v as [|c|z|f|s|s|l|d]; cbn [py_bytes] in H; try discriminate H.
  - injection H as <-. destruct c; reflexivity.
  - destruct (z <? 0); [discriminate H|]. injection H as <-. apply repeat_bytes.
  - injection H as <-. exact (W s eq_refl).
  - exact (octets_byte _ _ H).
  - destruct d; [injection H as <-; reflexivity|discriminate H].
Qed.
Lemma add_texts : forall nums names acc d m v, (forall x, dget acc m = Some x -> exists t, x = VStr t) -> add_nums acc nums names = Ok d -> dget d m = Some v -> exists t, v = VStr t.
Proof.
  intros nums. induction names as [|n names IH]; intros acc d m v A H G; [injection H as <-; exact (A v G)|]. cbn [add_nums] in H. cbv zeta in H.
  destruct (truthy (num nums n)); [|exact (IH acc d m v A H G)].
  destruct (num_to_base64 (num nums n)) as [t|] eqn:E; [cbn [bind] in H|discriminate H]. refine (IH _ _ _ _ _ H G). intros x X. rewrite dget_dset in X. destruct (zs_eqb n m); [|exact (A x X)].
  injection X as <-. exact (num_text _ _ E).
Qed.

Definition holds_octets (k : jwk) : Prop := forall s x, k_data k = DSym (VBytes s) x -> bytes_ok s = true.
Lemma serialized_texts : forall k t v, k_kty k = VStr t -> holds_octets k -> serialize k false = Ok v -> (exists o, k_data k = DKey o /\ v = VNone) \/ exists d, v = VDict d /\ texts d (required k).
Proof.
  intros k t v K O H. unfold serialize in H. unfold required. destruct (k_data k) as [o|key nums|o crv x y d curve|key k0] eqn:D.
  - left. injection H as <-. eauto.
  - right. destruct (otruthy key); [|discriminate H]. destruct (add_nums _ _ _) as [a|] eqn:A; [|discriminate H]. injection H as <-. exists a. split; [reflexivity|].
    intros n v I G. refine (add_texts _ _ _ _ _ _ _ A G). intros w X. rewrite common_get in X.
    cbn [In] in I. repeat (destruct I as [<-|I]; [first [injection X as <-; exists t; exact K|discriminate X]|]). destruct I.
  - right. destruct (_ && _); [discriminate H|]. destruct curve; try discriminate H. destruct (num_to_base64 x) as [x'|] eqn:X; [cbn [bind] in H|discriminate H]. destruct (num_to_base64 y) as [y'|] eqn:Y; [cbn [bind andb] in H|discriminate H].
    injection H as <-. eexists. split; [reflexivity|]. destruct (num_text _ _ X) as [sx ->], (num_text _ _ Y) as [sy ->]. intros n v I G. rewrite !dget_dset, common_get in G.
    cbn [In] in I. repeat (destruct I as [<-|I]; [cbn in G; first [injection G as <-; eexists; reflexivity|discriminate G]|]). destruct I.
  - right. destruct (py_bytes key) as [b|] eqn:B; [cbn [bind] in H|discriminate H].
    assert (W : bytes_ok b = true) by (refine (py_bytes_ok _ _ _ B); intros s ->; exact (O s k0 D)).
    rewrite as_unicode_ascii in H by (apply b64url_ascii, b64e_chars; exact W). injection H as <-. eexists. split; [reflexivity|]. intros n v I G. rewrite dget_dset, common_get in G.
    cbn [In] in I. destruct I as [<-|[<-|[]]]; [injection G as <-; eauto|]. injection G as <-. eauto.
Qed.

Theorem thumbprint_iff : forall P k t name, k_kty k = VStr t -> holds_octets k ->
  ((exists b, thumbprint P k name = Ok b) <-> writable k false /\ (forall o, k_data k <> DKey o) /\ In name [lit "SHA-256"; lit "SHA-384"; lit "SHA-512"]).
Proof.
  intros P k t name K O. rewrite <- serialize_iff. split.
  - intros [b H]. unfold thumbprint in H. destruct (serialize k false) as [v|] eqn:S; [cbn [bind] in H|discriminate H]. split; [eauto|]. split.
    + intros o D. unfold serialize in S. rewrite D in S. injection S as <-. discriminate H.
    + destruct v; try discriminate H. destruct (members_text d (required k)); [cbn [bind] in H|discriminate H]. unfold digest_hash in H. cbn [dget] in H. cbn [In].
      destruct (zs_eqb (lit "SHA-256") name) eqn:E1; [apply zs_eqb_eq in E1; auto|]. destruct (zs_eqb (lit "SHA-384") name) eqn:E2; [apply zs_eqb_eq in E2; auto|]. destruct (zs_eqb (lit "SHA-512") name) eqn:E3; [apply zs_eqb_eq in E3; auto|discriminate H].
  - intros ([v S] & N & I). unfold thumbprint. rewrite S. cbn [bind]. destruct (serialized_texts k t v K O S) as [(o & D & _)|(d & -> & T)]; [contradiction (N o D)|].
    destruct (members_ok d (required k) T (required_ascii k)) as (ms & E & M). rewrite E. cbn [bind].
    assert (exists h, digest_hash name = Some h) as [h Hh] by (cbn [In] in I; repeat (destruct I as [<-|I]; [eexists; reflexivity|]); destruct I). rewrite Hh.
    rewrite utf8_encode_ascii; [cbn [bind]; eauto|]. change (123 :: join 44 ms ++ [125]) with ([123] ++ join 44 ms ++ [125]). rewrite !ascii_app, (join_ascii ms M). reflexivity.
Qed.
