(** * The programs in /repo/script: signing succeeds, round trips through the programs *)
From Coq Require Import ZArith List Bool Lia.
From Verif Require Import Base BaseProofs Utf8 Codec CodecProofs Json JsonProofs Jwt JwtProofs Prims Elliptic Ecc KeyWrap Extra PvalEq Jwk JwkProofs JwkProofs2 Jws JwsProofs JwsProofs2 JwsProofs3 JwsProofs4 JwsProofs6 Jwe JweProofs JweProofs2 JweProofs3 JweProofs4 Misc Script.
Import ListNotations.
Open Scope Z_scope.

(** ** assign *)
Definition of_type {A} (t : ustr) (lst : list (ustr * A)) : list A := map snd (filter (fun p => zs_eqb (fst p) t) lst).

Lemma assign_add_get : forall A (m : list (ustr * list A)) t k u,
  dget (assign_add m t k) u = if zs_eqb t u then Some (match dget m t with Some l => l ++ [k] | None => [k] end) else dget m u.
Proof.
  intros A m t k u. induction m as [|[v l] m IH]; cbn [assign_add dget].
  - reflexivity.
  - destruct (zs_eqb v t) eqn:V.
    + apply zs_eqb_eq in V. subst v. cbn [dget]. destruct (zs_eqb t u) eqn:U; reflexivity.
    + cbn [dget]. destruct (zs_eqb v u) eqn:W.
      * apply zs_eqb_eq in W. subst u. destruct (zs_eqb t v) eqn:U; [|reflexivity]. rewrite zs_eqb_sym in U. congruence.
      * exact IH.
Qed.
Lemma assign_add_names : forall A (m : list (ustr * list A)) t k, map fst (assign_add m t k) = map fst m \/ (map fst (assign_add m t k) = map fst m ++ [t] /\ ~ In t (map fst m)).
Proof.
  intros A m t k. induction m as [|[v l] m IH]; cbn [assign_add map fst app].
  - right. split; [reflexivity|tauto].
  - destruct (zs_eqb v t) eqn:V; cbn [map fst]; [left; reflexivity|]. destruct IH as [IH|[IH N]]; [left; congruence|right]. split; [congruence|]. intros [X|X]; [|tauto].
    subst v. rewrite zs_eqb_refl in V. discriminate.
Qed.
Lemma NoDup_snoc : forall A (l : list A) x, NoDup l -> ~ In x l -> NoDup (l ++ [x]).
Proof.
  intros A l x H N. induction H as [|y l Y H IH]; cbn [app]; [constructor; [tauto|constructor]|]. constructor; [|apply IH; intro X; apply N; right; exact X].
  intro X. apply in_app_or in X. destruct X as [X|[X|[]]]; [exact (Y X)|]. apply N. left. exact (eq_sym X).
Qed.
Theorem assign_spec : forall A (lst : list (ustr * A)), NoDup (map fst (assign lst)) /\
  forall t, dget (assign lst) t = match of_type t lst with [] => None | l => Some l end.
Proof.
  intros A lst. unfold assign.
  assert (G : forall (lst : list (ustr * A)) m, NoDup (map fst m) ->
    NoDup (map fst (fold_left (fun m p => assign_add m (fst p) (snd p)) lst m)) /\
    forall t, dget (fold_left (fun m p => assign_add m (fst p) (snd p)) lst m) t = match of_type t lst with [] => dget m t | l => Some (match dget m t with Some x => x ++ l | None => l end) end).
  { clear lst. induction lst as [|[u k] lst IH]; intros m N; cbn [fold_left fst snd].
    - split; [exact N|reflexivity].
    - destruct (IH (assign_add m u k)) as [I1 I2].
      + destruct (assign_add_names A m u k) as [->|[-> X]]; [exact N|]. apply NoDup_snoc; assumption.
      + split; [exact I1|]. intro t. rewrite I2, assign_add_get. unfold of_type. cbn [filter fst]. destruct (zs_eqb u t) eqn:U; cbn [map snd].
        * apply zs_eqb_eq in U. subst u. destruct (map snd (filter (fun p => zs_eqb (fst p) t) lst)) as [|y l]; destruct (dget m t) as [x|]; try reflexivity.
          rewrite <- app_assoc. reflexivity.
        * reflexivity. }
  destruct (G lst [] ltac:(constructor)) as [G1 G2]. split; [exact G1|]. intro t. rewrite G2. destruct (of_type t lst); reflexivity.
Qed.

(** ** Signing succeeds *)
Lemma dmem_dset : forall (d : dict) n m v, n <> m -> dmem (dset d n v) m = dmem d m.
Proof. intros d n m v N. unfold dmem. rewrite dget_dset_other by exact N. reflexivity. Qed.

Theorem signs : forall P E s keys protected a g t kid k pb m, chosen s (Some keys) = VStr a -> dget SIGNERS a = Some g -> alg2keytype (VStr a) = Ok (Some t) ->
  kid_in_force s = Ok kid -> first_fit (suitable t kid (VStr (lit "sig")) (VStr a)) keys k ->
  json_header protected s (Some keys) -> dmem protected (lit "self") = false -> octets_wf (s_msg s) -> octets_of (s_msg s) = Ok pb ->
  get_key k true = Ok m -> (forall i, bytes_ok i = true -> exists sg, signer_sign P g E i m = Ok sg) ->
  exists s' h sg, sign_compact P E s (Some keys) protected = (s', Ok (b64e h ++ 46 :: b64e pb ++ 46 :: b64e sg)) /\
    loads h = Ok (VDict (sign_header protected (VStr a) (Some k) (dget (s_dict s) (lit "typ")))) /\ ascii h = true /\ signer_sign P g E (b64e h ++ 46 :: b64e pb) m = Ok sg.
Proof.
  intros P E s keys protected a g t kid k pb m C G T K F J NS W O GK SG.
  assert (NN : pval_eqb (VStr a) (VStr (lit "none")) = false).
  { destruct (pval_eqb (VStr a) (VStr (lit "none"))) eqn:X; [|reflexivity]. apply eqb_str_r in X. injection X as ->. discriminate G. }
  assert (JH : jsonable (VDict (sign_header protected (VStr a) (Some k) (dget (s_dict s) (lit "typ")))) = true).
  { apply (sign_header_json protected s a (Some k) (Some keys) J (signers_scalars _ _ G)). intros k0 X. injection X as <-. left. exists keys. split; [reflexivity|].
    destruct F as (pre & post & -> & _ & _). apply in_or_app. right. left. reflexivity. }
  destruct (encode_header _ _ (b2s_id _ JH) JH) as (h & _ & HA & HL & HE). apply allp_ascii in HA.
  pose proof (octets_ok _ _ W O) as BP.
  assert (AA : forallb ascii (map b64e [h; pb]) = true) by (apply b64e_all_ascii; cbn [forallb]; rewrite (ascii_bytes _ HA), BP; reflexivity).
  pose proof (ascii_join _ AA) as AJ. cbn [map join] in AJ.
  destruct (SG (b64e h ++ 46 :: b64e pb) (ascii_bytes _ AJ)) as (sg & S).
  exists (after_choice s (Some keys)), h, sg. split; [|auto]. unfold sign_compact.
  assert (AK : alg_keys P s (Some keys) (VStr (lit "sig")) protected = (after_choice s (Some keys), Ok (Some k, sign_header protected (VStr a) (Some k) None, VStr a))).
  { unfold alg_keys. destruct (pick_alg s (Some keys)) as [s0 al] eqn:PA. destruct (pick_alg_chosen s (Some keys)) as (C1 & C2 & C3 & _).
    rewrite PA in C1. cbn [snd] in C1. rewrite C in *. subst al. unfold after_choice in *. rewrite PA. cbn [fst]. f_equal.
    destruct (first_fit_ne _ _ _ _ F) as (x & r & Ekeys). rewrite Ekeys at 1. cbn [jws_keys bind]. rewrite <- Ekeys.
    assert (KI : kid_in_force s0 = Ok kid) by (rewrite <- K; rewrite <- (signing_kid s (Some keys)); unfold after_choice; rewrite PA; reflexivity).
    destruct (pick_keys_spec s0 keys (VStr (lit "sig")) (VStr a) (VStr a) t kid) as (out & PK & Pk); [unfold alg_or; rewrite C2; reflexivity|exact NN|exact T|exact KI|].
    destruct (picks_first _ _ _ _ _ Pk F) as (r' & ->). rewrite PK. cbn [bind]. reflexivity. }
  rewrite AK. destruct (pick_alg_chosen s (Some keys)) as (_ & C2 & _ & _ & C5 & _ & C7). rewrite C in C2.
  rewrite (C7 (lit "typ")) by (intro X; vm_compute in X; discriminate). rewrite C5. cbn [bind]. f_equal.
  change (match dget (s_dict s) (lit "typ") with Some t0 => dset (sign_header protected (VStr a) (Some k) None) (lit "typ") t0 | None => sign_header protected (VStr a) (Some k) None end)
    with (sign_header protected (VStr a) (Some k) (dget (s_dict s) (lit "typ"))).
  assert (HS : dmem (sign_header protected (VStr a) (Some k) (dget (s_dict s) (lit "typ"))) (lit "self") = false).
  { unfold sign_header. destruct (truthy (k_kid k)), (dget (s_dict s) (lit "typ")); rewrite ?dmem_dset by (intro X; vm_compute in X; discriminate); exact NS. }
  rewrite HS. set (hdr := sign_header protected (VStr a) (Some k) (dget (s_dict s) (lit "typ"))) in *.
  assert (HAL : dget hdr (lit "alg") = Some (VStr a)) by (apply sign_header_get).
  unfold jwt_init. rewrite HAL, C2. cbv zeta. rewrite HE. cbn [bind]. rewrite b64d_b64e by (apply ascii_bytes; exact HA). cbn [bind]. rewrite NN, G.
  rewrite (pack_items _ hdr) by (reflexivity || apply sign_header_nonempty || discriminate). rewrite HE. cbn [bind mapM]. rewrite item_octets, O. cbn [bind].
  cbn [map forallb] in AA. apply andb_true_iff in AA. destruct AA as [A1 A2]. apply andb_true_iff in A2. destruct A2 as [A2 _].
  rewrite (utf8_decode_ascii _ A1). cbn [bind mapM]. rewrite (utf8_decode_ascii _ A2). cbn [bind mapM join]. rewrite utf8_encode_ascii by exact AJ. cbn [bind].
  rewrite GK. cbn [bind]. rewrite S. cbn [bind]. rewrite <- app_assoc. reflexivity.
Qed.

(** ** One symmetric key for everything *)
Record plain_key (k : jwk) (x secret : list Z) : Prop := {
  pk_kty : k_kty k = VStr (lit "oct");
  pk_alg : truthy (k_alg k) = false;
  pk_use : truthy (k_use k) = false;
  pk_kid : k_kid k = VStr x \/ (k_kid k = VNone /\ x = []);
  pk_text : scalars x = true;
  pk_data : exists kk, k_data k = DSym (VBytes secret) kk;
  pk_octets : bytes_ok secret = true;
  pk_some : secret <> []
}.
Lemma plain_suitable : forall k x secret use alg, plain_key k x secret -> suitable (lit "oct") VNone use alg k.
Proof.
  intros k x secret use alg H. split; [left; rewrite (pk_kty _ _ _ H); reflexivity|]. split; [discriminate|]. split; [intros _ U; rewrite (pk_use _ _ _ H) in U; discriminate|].
  intros _ U. rewrite (pk_alg _ _ _ H) in U. discriminate.
Qed.
Lemma plain_first : forall k x secret use alg, plain_key k x secret -> first_fit (suitable (lit "oct") VNone use alg) [k] k.
Proof. intros. exists [], []. split; [reflexivity|]. split; [eapply plain_suitable; eassumption|constructor]. Qed.
Lemma plain_json : forall k x secret, plain_key k x secret -> jsonable (k_kid k) = true.
Proof. intros k x secret H. destruct (pk_kid _ _ _ H) as [->|[-> _]]; [exact (pk_text _ _ _ H)|reflexivity]. Qed.

(** What the reader of a text sees: its JSON value if it has one, else the text. *)
Definition seen (msg : ustr) : pval := match loads msg with Ok v => v | Raise _ => VStr msg end.
Lemma view_text : forall h msg pb, dget h (lit "cty") = None -> utf8_encode msg = Ok pb -> payload_view h pb = seen msg.
Proof. intros h msg pb C U. unfold payload_view, seen. rewrite C, (utf8_decode_encode _ _ U). cbn [loads_any]. reflexivity. Qed.

Definition text_or_none (v : pval) : Prop := v = VNone \/ exists t, v = VStr t /\ scalars t = true.
Definition typed (a : ustr) (msg : pval) (typ : pval) : jws :=
  {| s_msg := msg; s_dict := if truthy typ then [(lit "alg", VStr a); (lit "typ", typ)] else [(lit "alg", VStr a)]; s_jwk := None; s_jwt := None; s_key := None |}.
Lemma sign_typed : forall P E msg keys a typ, sign P E msg keys (VStr a) typ = snd (sign_compact P E (typed a msg typ) (Some keys) []).
Proof. intros. unfold sign, jws_init. cbn [dget]. cbn [bind]. unfold typed. destruct (truthy typ); reflexivity. Qed.

Lemma ascii_token : forall h pb sg, ascii h = true -> bytes_ok pb = true -> bytes_ok sg = true -> ascii (b64e h ++ 46 :: b64e pb ++ 46 :: b64e sg) = true.
Proof.
  intros h pb sg A B C. assert (AA : forallb ascii (map b64e [h; pb; sg]) = true) by (apply b64e_all_ascii; cbn [forallb]; rewrite (ascii_bytes _ A), B, C; reflexivity).
  exact (ascii_join _ AA).
Qed.

Theorem sign_verify_one : forall P E, hmac_law P -> forall a h k x secret msg pb typ, In (a, h) hs_algs -> plain_key k x secret -> utf8_encode msg = Ok pb -> text_or_none typ ->
  exists tok, sign P E (VStr msg) [k] (VStr a) typ = Ok tok /\ ascii tok = true /\ In 46 tok /\ verify P (VStr tok) [k] false VNone = Ok (seen msg).
Proof.
  intros P E HM a h k x secret msg pb typ IA PK U TY. pose proof (signers_hs _ _ IA) as SG. pose proof (family_hs _ _ IA) as FA.
  assert (TA : truthy (VStr a) = true) by (eapply signers_truthy; exact SG).
  destruct (pk_data _ _ _ PK) as (kk & KD).
  assert (G1 : forall b, get_key k b = Ok (MObj (OVal (VBytes secret)))) by (intro b; unfold get_key; rewrite KD; reflexivity).
  set (s := typed a (VStr msg) typ).
  assert (DA : dget (s_dict s) (lit "alg") = Some (VStr a)) by (unfold s, typed; cbn [s_dict]; destruct (truthy typ); reflexivity).
  assert (CH : chosen s (Some [k]) = VStr a) by (unfold chosen; rewrite DA, TA; reflexivity).
  assert (KI : kid_in_force s = Ok VNone) by (unfold kid_in_force, s, typed; cbn [s_dict s_jwt]; destruct (truthy typ); reflexivity).
  assert (JH : json_header [] s (Some [k])).
  { split; [reflexivity|]. split.
    - intros t0 X. unfold s, typed in X. cbn [s_dict] in X. destruct (truthy typ) eqn:TT; [|discriminate X]. cbn in X. injection X as <-. destruct TY as [->|(t1 & -> & ST)]; [reflexivity|exact ST].
    - intros k0 [(l & X & I)|[_ X]]; [|discriminate X]. injection X as <-. destruct I as [<-|[]]. apply (plain_json _ _ _ PK). }
  assert (OW : octets_wf (s_msg s)) by (intros b X; discriminate X).
  destruct (signs P E s [k] [] a (HMACSigner h) (lit "oct") VNone k pb _ CH SG FA KI (plain_first _ _ _ _ _ PK) JH eq_refl OW U (G1 true)) as (s' & hd & sg & SC & HL & HA & SS).
  { intros i _. cbn [signer_sign as_secret bind]. eexists. reflexivity. }
  exists (b64e hd ++ 46 :: b64e pb ++ 46 :: b64e sg). split; [rewrite sign_typed; fold s; rewrite SC; reflexivity|].
  pose proof (utf8_encode_ok _ _ U) as BP.
  assert (BS : bytes_ok sg = true).
  { cbn in SS. injection SS as <-. apply HM. exact (pk_octets _ _ _ PK). assert (AA : forallb ascii (map b64e [hd; pb]) = true) by (apply b64e_all_ascii; cbn [forallb]; rewrite (ascii_bytes _ HA), BP; reflexivity). exact (ascii_bytes _ (ascii_join _ AA)). }
  split; [apply ascii_token; assumption|]. split; [apply in_or_app; right; left; reflexivity|].
  destruct (sign_then_verify P E s [k] [] s' _ a (HMACSigner h) (lit "oct") SC CH SG FA) with (v := new_jws) (an := false) (sigalg := VNone) (token := VStr (b64e hd ++ 46 :: b64e pb ++ 46 :: b64e sg)) as (pb' & v' & k' & O' & V & _).
  - discriminate.
  - exact OW.
  - exact JH.
  - left. reflexivity.
  - intros k0 [<-|[]] _. apply (works_hmac P h k secret HM (pk_octets _ _ _ PK) (G1 true) (G1 false)).
  - intros k0 [<-|[]] T. destruct (pk_kid _ _ _ PK) as [->|[X _]]; [eexists; reflexivity|]. rewrite X in T. discriminate.
  - intros k0 _ _. reflexivity.
  - intros k0 k1 [<-|[]] [<-|[]]. left. reflexivity.
  - left. reflexivity.
  - split; [left; reflexivity|reflexivity].
  - left. reflexivity.
  - change (s_msg s) with (VStr msg) in O'. cbn [octets_of] in O'. rewrite U in O'. injection O' as <-.
    unfold verify. rewrite V. cbn [snd bind]. rewrite (view_text [] msg pb eq_refl U). reflexivity.
Qed.

(** ** The size of a header *)
Lemma esc_len : forall s, (length (esc_str s) <= 12 * length s + 2)%nat.
Proof.
  intro s. unfold esc_str. cbn [length]. rewrite app_length. cbn [length].
  assert (H : (length (concat (map esc_c s)) <= 12 * length s)%nat); [|lia].
  induction s as [|c s IH]; cbn [map concat length]; [lia|]. rewrite app_length.
  assert (length (esc_c c) <= 12)%nat; [|lia]. unfold esc_c.
  repeat match goal with |- context [if ?b then _ else _] => destruct b; [cbn; lia|] end. cbn. lia.
Qed.
Definition texts (d : list (ustr * ustr)) : dict := map (fun p => (fst p, VStr (snd p))) d.
Definition weight (d : list (ustr * ustr)) : nat := fold_right (fun p n => (12 * length (fst p) + 12 * length (snd p) + 6 + n)%nat) 0%nat d.
Lemma interc_len : forall l, (length (interc (sep_item false) l) <= fold_right (fun x n => S (length x) + n) 0 l)%nat.
Proof.
  induction l as [|x [|y l] IH]; [cbn; lia|cbn [interc fold_right]; lia|].
  change (interc (sep_item false) (x :: y :: l)) with (x ++ sep_item false ++ interc (sep_item false) (y :: l)).
  change (fold_right (fun x n => S (length x) + n)%nat 0%nat (x :: y :: l)) with (S (length x) + fold_right (fun x n => S (length x) + n)%nat 0%nat (y :: l))%nat.
  rewrite !app_length. change (length (sep_item false)) with 1%nat. lia.
Qed.
Lemma dumps_texts : forall d, exists t, dumps false (VDict (texts d)) = Ok t /\ (length t <= weight d + 2)%nat.
Proof.
  intro d. cbn [dumps].
  set (go := fix go (d : list (ustr * pval)) : res (list (list Z)) := match d with [] => Ok [] | (k, x) :: r => y <- dumps false x;; ys <- go r;; Ok ((esc_str k ++ sep_key false ++ y) :: ys) end).
  assert (G : exists l, go (texts d) = Ok l /\ (fold_right (fun x n => S (length x) + n) 0 l <= weight d)%nat).
  { induction d as [|[k v] d (l & E & L)]; [exists []; split; [reflexivity|cbn; lia]|]. change (go (texts ((k, v) :: d))) with (y <- dumps false (VStr v);; ys <- go (texts d);; Ok ((esc_str k ++ sep_key false ++ y) :: ys)).
    cbn [dumps bind]. rewrite E. cbn [bind]. eexists. split; [reflexivity|]. cbn [fold_right]. rewrite !app_length. pose proof (esc_len k). pose proof (esc_len v).
    change (weight ((k, v) :: d)) with (12 * length k + 12 * length v + 6 + weight d)%nat. change (length (sep_key false)) with 1%nat. lia. }
  destruct G as (l & -> & L). cbn [bind]. eexists. split; [reflexivity|]. cbn [length]. rewrite app_length. pose proof (interc_len l). change (length [125]) with 1%nat. lia.
Qed.
Lemma texts_small : forall d, jsonable (VDict (texts d)) = true -> Z.of_nat (weight d) < 2 ^ 59 -> header_small (texts d).
Proof.
  intros d J W he H. destruct (encode_header _ _ (b2s_id _ J) J) as (t & T & TA & _ & E). rewrite E in H. injection H as <-.
  destruct (dumps_texts d) as (t' & T' & L). rewrite T in T'. injection T' as <-. rewrite b64e_length by (apply ascii_bytes, allp_ascii; exact TA).
  change (2 ^ 59) with 576460752303423488 in W. change (2 ^ 61) with 2305843009213693952. apply Z.div_lt_upper_bound; lia.
Qed.

(** ** Encryption with the same key *)
Definition ENCS : list ustr := [lit "A128GCM"; lit "A192GCM"; lit "A256GCM"; lit "A128CBC-HS256"; lit "A192CBC-HS384"; lit "A256CBC-HS512"].
Definition enc_jwe (msg a e : ustr) : jwe := {| w_msg := VStr msg; w_dict := [(lit "alg", VStr a); (lit "enc", VStr e)]; w_jwk := None; w_epk := None; w_jwt := None |}.
Lemma encrypt_new : forall P R msg keys a e, encrypt P R (VStr msg) keys (VStr a) (VStr e) = (' (t, _) <- jwe_encrypt P R (enc_jwe msg a e) (Some keys) [] [] None;; Ok t).
Proof. reflexivity. Qed.

Theorem encrypt_decrypt_one : forall P R, aes_law P -> hmac_law P -> hash_law P -> draws_ok R ->
  forall a e k x secret msg m, In a KW_ALGS -> In e ENCS -> plain_key k x secret -> Z.of_nat (length x) < 2 ^ 50 -> utf8_encode msg = Ok m -> Z.of_nat (length m) <= 16 * 2 ^ 32 ->
  exists tok, encrypt P R (VStr msg) [k] (VStr a) (VStr e) = Ok tok /\ forall sent k' x', plain_key k' x' secret -> k_data k' = k_data k -> decrypt P sent (VStr tok) [k'] = Ok m.
Proof.
  intros P R AES HM HL DR a e k x secret msg m IA IE PK LX U LM. destruct (pk_data _ _ _ PK) as (kk & KD).
  set (w := enc_jwe msg a e).
  assert (DA : dget (w_dict w) (lit "alg") = Some (VStr a)) by reflexivity. assert (DE : dget (w_dict w) (lit "enc") = Some (VStr e)) by reflexivity.
  assert (ES : exists kl il, enc_sizes e = Some (kl, il)) by (unfold ENCS in IE; cbn [In] in IE; repeat (destruct IE as [<-|IE]; [eexists _, _; reflexivity|]); destruct IE).
  destruct ES as (kl & il & ES).
  assert (SA : scalars a = true) by (unfold KW_ALGS in IA; cbn [In] in IA; repeat (destruct IA as [<-|IA]; [reflexivity|]); destruct IA).
  assert (SE : scalars e = true) by (unfold ENCS in IE; cbn [In] in IE; repeat (destruct IE as [<-|IE]; [reflexivity|]); destruct IE).
  assert (LA : (length a <= 6)%nat) by (unfold KW_ALGS in IA; cbn [In] in IA; repeat (destruct IA as [<-|IA]; [cbn; lia|]); destruct IA).
  assert (LE : (length e <= 13)%nat) by (unfold ENCS in IE; cbn [In] in IE; repeat (destruct IE as [<-|IE]; [cbn; lia|]); destruct IE).
  assert (JA : json_args w SYM_ARGS).
  { intros n v I X. unfold w, enc_jwe in X. cbn [w_dict dget] in X. destruct (zs_eqb (lit "alg") n); [injection X as <-; exact SA|]. destruct (zs_eqb (lit "enc") n); [injection X as <-; exact SE|]. discriminate X. }
  assert (SUB : sub_dict w SYM_ARGS = [(lit "alg", VStr a); (lit "enc", VStr e)]) by reflexivity.
  assert (HS : header_small (kid_dict None (named_dict k (sub_dict w SYM_ARGS)))).
  { cbn [kid_dict]. rewrite SUB. unfold named_dict. destruct (truthy (k_kid k)) eqn:TK.
    - destruct (pk_kid _ _ _ PK) as [EK|[EK _]]; [|rewrite EK in TK; discriminate]. rewrite EK.
      change (dset [(lit "alg", VStr a); (lit "enc", VStr e)] (lit "kid") (VStr x)) with (texts [(lit "alg", a); (lit "enc", e); (lit "kid", x)]).
      apply texts_small.
      + pose proof (pk_text _ _ _ PK) as SX. change (texts [(lit "alg", a); (lit "enc", e); (lit "kid", x)]) with (dset (dset (dset [] (lit "alg") (VStr a)) (lit "enc") (VStr e)) (lit "kid") (VStr x)).
        repeat (apply jsonable_dset; [|reflexivity|assumption]). reflexivity.
      + cbn [weight fold_right fst snd]. change (length (lit "alg")) with 3%nat. change (length (lit "enc")) with 3%nat. change (length (lit "kid")) with 3%nat.
        change (2 ^ 59) with 576460752303423488. change (2 ^ 50) with 1125899906842624 in LX. lia.
    - change [(lit "alg", VStr a); (lit "enc", VStr e)] with (texts [(lit "alg", a); (lit "enc", e)]). apply texts_small.
      + change (texts [(lit "alg", a); (lit "enc", e)]) with (dset (dset [] (lit "alg") (VStr a)) (lit "enc") (VStr e)).
        repeat (apply jsonable_dset; [|reflexivity|assumption]). reflexivity.
      + cbn [weight fold_right fst snd]. change (length (lit "alg")) with 3%nat. change (length (lit "enc")) with 3%nat. change (2 ^ 59) with 576460752303423488. lia. }
  destruct (sym_encrypts P R AES HM HL DR w a e kl il msg m [k] k VNone [] [] None secret kk IA DA DE ES eq_refl eq_refl U LM JA (plain_json _ _ _ PK) ltac:(discriminate) HS eq_refl (plain_first _ _ _ _ _ PK) KD (pk_octets _ _ _ PK) (pk_some _ _ _ PK))
    as (tok & ENC); [left; reflexivity|left; reflexivity|].
  exists tok. split; [rewrite encrypt_new; fold w; rewrite ENC; reflexivity|]. intros sent k' x' PK' KD'.
  destruct (jwe_sym_roundtrip P R AES HM HL DR w a [k] k VNone [] [] None tok (w_set w (lit "cek") VNone) IA DA JA (plain_json _ _ _ PK) ltac:(discriminate) eq_refl (plain_first _ _ _ _ _ PK) (VBytes secret) kk KD) as (t & m' & MT & U' & D);
    [intros s0 X; injection X as <-; exact (pk_octets _ _ _ PK)|reflexivity|reflexivity|split; [reflexivity|reflexivity]|exact ENC|].
  change (w_msg w) with (VStr msg) in MT. injection MT as <-. rewrite U in U'. injection U' as <-.
  unfold decrypt. rewrite (D sent new_jwe [k'] k' VNone VNone (VStr tok) eq_refl (plain_first _ _ _ _ _ PK') KD' (or_introl eq_refl) (or_introl eq_refl)). reflexivity.
Qed.

(** ** gen_symkey *)
Definition AZ09 (c : Z) : Prop := 65 <= c <= 90 \/ 48 <= c <= 57.
Lemma chars_ok : forall i, (i < 36)%nat -> AZ09 (nth i rnd_chars 0).
Proof.
  intros i L. assert (F : Forall AZ09 rnd_chars) by (repeat (apply Forall_cons; [unfold AZ09; first [left; vm_compute; intuition discriminate | right; vm_compute; intuition discriminate]|]); apply Forall_nil).
  rewrite Forall_forall in F. apply F. apply nth_In. change (length rnd_chars) with 36%nat. exact L.
Qed.
Lemma rndstr_spec : forall rnd n, (forall i, (rnd i < 36)%nat) -> Z.of_nat (length (rndstr rnd n)) = Z.max 0 n /\ Forall AZ09 (rndstr rnd n).
Proof.
  intros rnd n H. unfold rndstr. rewrite map_length, seq_length. split; [lia|]. apply Forall_forall. intros c I. apply in_map_iff in I. destruct I as (i & <- & _). apply chars_ok. apply H.
Qed.
Lemma AZ09_ascii : forall s, Forall AZ09 s -> ascii s = true.
Proof. intros s F. apply forallb_forall. intros c I. rewrite Forall_forall in F. specialize (F c I). unfold AZ09 in F. lia. Qed.

Definition kid_ok (kid : option ustr) : Prop := match kid with Some x => scalars x = true | None => True end.
Definition kid_of (kid : option ustr) : ustr := match kid with Some x => x | None => [] end.
Definition sym_dict (x s : ustr) : dict :=
  match x with [] => [(lit "kty", VStr (lit "oct")); (lit "k", VStr (b64e s))] | _ => [(lit "kty", VStr (lit "oct")); (lit "kid", VStr x); (lit "k", VStr (b64e s))] end.

Lemma symkey_serialized : forall s kid, ascii s = true -> exists k, sym_new [(lit "kid", oval kid)] (VStr s) = Ok k /\ serialize k true = Ok (VDict (sym_dict (kid_of kid) s)).
Proof.
  intros s kid A. unfold sym_new. cbn [as_bytes]. rewrite utf8_encode_ascii by exact A. cbn [bind].
  unfold key_init. cbn [dmem dget zs_eqb]. change (dmem [(lit "kid", oval kid)] (lit "self")) with false. cbn match.
  change (kwarg [(lit "kid", oval kid)] (lit "k") (VStr [])) with (VStr []). cbn [truthy]. rewrite andb_false_r. cbn [bind].
  eexists. split; [reflexivity|].
  unfold serialize. cbn [k_data py_bytes bind]. cbn [as_unicode]. rewrite utf8_decode_ascii by (apply b64e_ascii, ascii_bytes; exact A).
  unfold common. cbn [k_kty k_use k_kid k_alg].
  change (kwarg [(lit "kid", oval kid)] (lit "kid") (VStr [])) with (oval kid).
  change (kwarg [(lit "kid", oval kid)] (lit "use") (VStr [])) with (VStr []).
  change (kwarg [(lit "kid", oval kid)] (lit "alg") (VStr [])) with (VStr []).
  change (kwarg [(lit "kid", oval kid)] (lit "kty") (VStr (lit "oct"))) with (VStr (lit "oct")).
  destruct kid as [[|c x]|]; reflexivity.
Qed.

Lemma sym_dict_json : forall x s, scalars x = true -> ascii s = true -> jsonable (VDict (sym_dict x s)) = true.
Proof.
  intros x s X A. assert (B : scalars (b64e s) = true) by (apply scalars_ascii, b64e_ascii, ascii_bytes; exact A).
  destruct x as [|c x].
  - change (sym_dict [] s) with (dset (dset [] (lit "kty") (VStr (lit "oct"))) (lit "k") (VStr (b64e s))). repeat (apply jsonable_dset; [|reflexivity|first [assumption|reflexivity]]). reflexivity.
  - change (sym_dict (c :: x) s) with (dset (dset (dset [] (lit "kty") (VStr (lit "oct"))) (lit "kid") (VStr (c :: x))) (lit "k") (VStr (b64e s))). repeat (apply jsonable_dset; [|reflexivity|first [assumption|reflexivity]]). reflexivity.
Qed.

Lemma keyrep_sym : forall P x s, scalars x = true -> ascii s = true -> s <> [] -> exists k, keyrep P (VDict (sym_dict x s)) = Ok k /\ plain_key k x s.
Proof.
  intros P x s X A N. assert (AB : ascii (b64e s) = true) by (apply b64e_ascii, ascii_bytes; exact A).
  assert (NB : b64e s <> []) by (intro Q; pose proof (b64e_length s (ascii_bytes _ A)) as Q2; rewrite Q in Q2; cbn [length] in Q2; destruct s as [|c0 r0]; [congruence|]; cbn [length] in Q2;
    pose proof (Z.div_le_lower_bound (4 * Z.of_nat (S (length r0)) + 2) 3 2 ltac:(lia) ltac:(lia)); lia).
  assert (U : exists xb, utf8_encode x = Ok xb) by (unfold utf8_encode; rewrite X; eexists; reflexivity). destruct U as (xb & U).
  assert (EV : exists kw, enc_values (sym_dict x s) = Ok kw /\ kw = (if is_nil x then [(lit "kty", VBytes (lit "oct")); (lit "k", VBytes (b64e s))] else [(lit "kty", VBytes (lit "oct")); (lit "kid", VBytes xb); (lit "k", VBytes (b64e s))])).
  { eexists. split; [|reflexivity]. destruct x as [|c x]; unfold sym_dict; cbn [enc_values as_bytes is_nil].
    - change (utf8_encode (lit "oct")) with (Ok (lit "oct")). cbn [bind]. rewrite (utf8_encode_ascii _ AB). reflexivity.
    - change (utf8_encode (lit "oct")) with (Ok (lit "oct")). cbn [bind]. rewrite U. cbn [bind]. rewrite (utf8_encode_ascii _ AB). reflexivity. }
  destruct EV as (kw & EV & EK). unfold keyrep. rewrite EV. cbn [bind].
  assert (KT : dget (sym_dict x s) (lit "kty") = Some (VStr (lit "oct"))) by (destruct x; reflexivity). rewrite KT. unfold dispatch. cbv zeta.
  change (pval_eqb (VStr (lit "oct")) (VStr (lit "RSA"))) with false. change (pval_eqb (VStr (lit "oct")) (VStr (lit "oct"))) with true. cbn match.
  assert (K0 : kwarg kw (lit "key") VNone = VNone) by (subst kw; destruct x; reflexivity). rewrite K0. unfold sym_new. cbv zeta.
  assert (K1 : kwarg kw (lit "k") (VStr []) = VBytes (b64e s)) by (subst kw; destruct x; reflexivity). rewrite K1. cbn [as_bytes bind]. unfold key_init.
  assert (K2 : dmem kw (lit "self") = false) by (subst kw; destruct x; reflexivity). rewrite K2. cbn [bind truthy negb andb].
  destruct (b64e s) as [|c0 r0] eqn:EB; [congruence|]. rewrite <- EB. cbn [as_bytes bind py_bytes]. rewrite b64d_b64e by (apply ascii_bytes; exact A). cbn [bind].
  eexists. split; [reflexivity|]. constructor; cbn [set_data k_kty k_alg k_use k_kid k_data].
  - subst kw. destruct x; reflexivity.
  - subst kw. destruct x; reflexivity.
  - subst kw. destruct x; reflexivity.
  - left. destruct x as [|c x]; [subst kw; reflexivity|]. assert (K3 : kwarg kw (lit "kid") (VStr []) = VBytes xb) by (subst kw; reflexivity). rewrite K3.
    unfold textual. cbn [is_str as_unicode]. rewrite (utf8_decode_encode _ _ U). reflexivity.
  - exact X.
  - eexists. reflexivity.
  - apply ascii_bytes. exact A.
  - exact N.
Qed.

Theorem gen_symkey_loads : forall P rnd n kid, (forall i, (rnd i < 36)%nat) -> 0 < n -> kid_ok kid ->
  exists t k, gen_symkey rnd n kid = Printed [VStr t] /\ load_jwks P [] (VStr t) = ([k], None) /\ plain_key k (kid_of kid) (rndstr rnd n) /\
    Z.of_nat (length (rndstr rnd n)) = n /\ Forall AZ09 (rndstr rnd n).
Proof.
  intros P rnd n kid H N K. destruct (rndstr_spec rnd n H) as [L F]. pose proof (AZ09_ascii _ F) as A. set (s := rndstr rnd n) in *.
  assert (NE : s <> []) by (intro X; rewrite X in L; cbn in L; lia).
  assert (X : scalars (kid_of kid) = true) by (destruct kid; [exact K|reflexivity]).
  destruct (symkey_serialized s kid A) as (k0 & S1 & S2). destruct (keyrep_sym P (kid_of kid) s X A NE) as (k & KR & PK).
  assert (J : jsonable (VDict [(lit "keys", VList [VDict (sym_dict (kid_of kid) s)])]) = true).
  { change [(lit "keys", VList [VDict (sym_dict (kid_of kid) s)])] with (dset [] (lit "keys") (VList [VDict (sym_dict (kid_of kid) s)])). apply jsonable_dset; [reflexivity|reflexivity|].
    change (jsonable (VDict (sym_dict (kid_of kid) s)) && true = true). rewrite (sym_dict_json _ _ X A). reflexivity. }
  destruct (loads_dumps true _ J) as (t & T1 & T2 & T3). exists t, k. split.
  { unfold gen_symkey. fold s. rewrite S1. cbn [bind]. rewrite S2. cbn [bind]. rewrite T1. reflexivity. }
  split; [|split; [exact PK|split; [lia|exact F]]]. unfold load_jwks. cbn [loads_any]. rewrite T3. cbn [load_dict].
  change (dget [(lit "keys", VList [VDict (sym_dict (kid_of kid) s)])] (lit "keys")) with (Some (VList [VDict (sym_dict (kid_of kid) s)])). cbn [load_list]. rewrite KR. reflexivity.
Qed.

(** ** The programs *)
Section Pipeline.
Variables (P : prims) (E : entropy) (R : draws) (sent : nat -> bytes) (read : ustr -> res ustr) (imp : ustr -> res rsakey) (stdin : ustr).

Definition quiet : options :=
  {| o_sign := false; o_verify := false; o_encrypt := false; o_decrypt := false; o_file := None; o_rsa := None; o_hmac := None; o_alg := None; o_encalg := None; o_encenc := None;
     o_jwk := None; o_jwks := None; o_kid := None; o_type := None; o_url := None; o_message := None |}.
(** -s -a alg [-t typ], -s -e -a alg [-t typ] -A encalg -E enc, -v; the keys from a secret (-k) or a file (-J). *)
Inductive source := Secret (t : ustr) | File (name : ustr).
Definition s_hmac (src : source) : option ustr := match src with Secret t => Some t | File _ => None end.
Definition s_file (src : source) : option ustr := match src with Secret _ => None | File n => Some n end.
Definition sign_options (src : source) (alg : ustr) (typ : option ustr) (msg : ustr) : options :=
  {| o_sign := true; o_verify := false; o_encrypt := false; o_decrypt := false; o_file := None; o_rsa := None; o_hmac := s_hmac src; o_alg := Some alg; o_encalg := None; o_encenc := None;
     o_jwk := None; o_jwks := s_file src; o_kid := None; o_type := typ; o_url := None; o_message := Some msg |}.
Definition nest_options (src : source) (alg : ustr) (typ : option ustr) (encalg enc msg : ustr) : options :=
  {| o_sign := true; o_verify := false; o_encrypt := true; o_decrypt := false; o_file := None; o_rsa := None; o_hmac := s_hmac src; o_alg := Some alg; o_encalg := Some encalg; o_encenc := Some enc;
     o_jwk := None; o_jwks := s_file src; o_kid := None; o_type := typ; o_url := None; o_message := Some msg |}.
Definition verify_options (src : source) (msg : ustr) : options :=
  {| o_sign := false; o_verify := true; o_encrypt := false; o_decrypt := false; o_file := None; o_rsa := None; o_hmac := s_hmac src; o_alg := None; o_encalg := None; o_encenc := None;
     o_jwk := None; o_jwks := s_file src; o_kid := None; o_type := None; o_url := None; o_message := Some msg |}.
Definition jwenc_options (name encalg enc msg : ustr) : enc_options :=
  {| e_url := None; e_jwk := Some name; e_xurl := None; e_xfile := None; e_rsa := None; e_alg := Some encalg; e_enc := Some enc; e_file := None; e_message := Some msg |}.
Definition jwdecrypt_options (name msg : ustr) : dec_options := {| d_url := None; d_jwk := Some name; d_rsa := None; d_file := None; d_message := Some msg |}.

(** The source gives the key. *)
Definition gives (src : source) (k : jwk) : Prop :=
  match src with
  | Secret t => t <> [] /\ sym_new [] (VStr t) = Ok k
  | File n => n <> [] /\ exists t, read n = Ok t /\ load_jwks P [] (VStr t) = ([k], None)
  end.
Lemma given_some : forall t, t <> [] -> given (Some t) = Some t.
Proof. intros [|c t] H; [congruence|reflexivity]. Qed.
Lemma source_keys : forall src k o, gives src k -> o_rsa o = None -> o_hmac o = s_hmac src -> o_jwk o = None -> o_jwks o = s_file src -> o_url o = None -> util_keys P read imp o = Ok [k].
Proof.
  intros src k o G O1 O2 O3 O4 O5. unfold util_keys, opt_step. rewrite O1, O2, O3, O4, O5. destruct src as [t|n]; cbn [s_hmac s_file].
  - destruct G as [N S]. change (given None) with (@None ustr). cbn [bind]. rewrite given_some by exact N. rewrite S. reflexivity.
  - destruct G as (N & t & RD & L). change (given None) with (@None ustr). cbn [bind]. rewrite given_some by exact N. rewrite RD. cbn [bind]. rewrite L. reflexivity.
Qed.
Lemma message_text : forall msg chars, msg <> lit "-" -> message read stdin None (Some msg) chars = Ok (VStr msg).
Proof. intros msg chars N. unfold message. cbn [given]. destruct (zs_eqb msg (lit "-")) eqn:Q; [apply zs_eqb_eq in Q; contradiction|reflexivity]. Qed.
Lemma dotted : forall t, In 46 t -> t <> lit "-".
Proof. intros t I ->. destruct I as [X|[]]. vm_compute in X. discriminate. Qed.
Lemma oval_text : forall typ, kid_ok typ -> text_or_none (oval typ).
Proof. intros [t|] K; [right; exists t; split; [reflexivity|exact K]|left; reflexivity]. Qed.

Theorem util_sign_verify : hmac_law P -> forall src k x secret a h typ msg pb, gives src k -> plain_key k x secret -> In (a, h) hs_algs -> kid_ok typ -> msg <> lit "-" -> utf8_encode msg = Ok pb ->
  exists tok, jwkutil P E R sent read imp stdin (sign_options src a typ msg) = Printed [VStr tok] /\ ascii tok = true /\
    jwkutil P E R sent read imp stdin (verify_options src tok) = Printed [seen msg] /\
    sign P E (VStr msg) [k] (VStr a) (oval typ) = Ok tok.
Proof.
  intros HM src k x secret a h typ msg pb G PK IA KT ND U.
  destruct (sign_verify_one P E HM a h k x secret msg pb (oval typ) IA PK U (oval_text _ KT)) as (tok & S & A & D & V). exists tok.
  split; [|split; [exact A|split; [|exact S]]]; unfold jwkutil; rewrite (source_keys src k) by (exact G || reflexivity); cbn [run_of sign_options verify_options o_file o_message o_sign o_encrypt o_decrypt o_verify o_alg o_type].
  - rewrite message_text by exact ND. cbn [run_of]. change (oval (Some a)) with (VStr a). rewrite S. reflexivity.
  - rewrite message_text by (apply dotted; exact D). cbn [run_of]. rewrite V. reflexivity.
Qed.

Hypotheses (AES : aes_law P) (HM : hmac_law P) (HL : hash_law P) (DR : draws_ok R).

Lemma ENCS_text : forall e, In e ENCS -> e <> [] /\ existsb (zs_eqb e) SUPPORTED_ENC = true.
Proof. intros e IE. unfold ENCS in IE. cbn [In] in IE. repeat (destruct IE as [<-|IE]; [split; [discriminate|reflexivity]|]). destruct IE. Qed.
Lemma KW_text : forall e, In e KW_ALGS -> e <> [] /\ existsb (zs_eqb e) SUPPORTED_ALG = true.
Proof. intros e IE. unfold KW_ALGS in IE. cbn [In] in IE. repeat (destruct IE as [<-|IE]; [split; [discriminate|reflexivity]|]). destruct IE. Qed.

Theorem util_nested : forall name k x secret a h typ ka e msg pb, gives (File name) k -> plain_key k x secret -> Z.of_nat (length x) < 2 ^ 50 ->
  In (a, h) hs_algs -> kid_ok typ -> In ka KW_ALGS -> In e ENCS -> msg <> lit "-" -> utf8_encode msg = Ok pb ->
  exists inner, jwkutil P E R sent read imp stdin (sign_options (File name) a typ msg) = Printed [VStr inner] /\
    jwkutil P E R sent read imp stdin (verify_options (File name) inner) = Printed [seen msg] /\
    (Z.of_nat (length inner) <= 16 * 2 ^ 32 -> exists outer, jwkutil P E R sent read imp stdin (nest_options (File name) a typ ka e msg) = Printed [VStr outer] /\
      jwdecrypt P sent read imp (jwdecrypt_options name outer) = Printed [VBytes inner]).
Proof.
  intros name k x secret a h typ ka e msg pb G PK LX IA KT IK IE ND U.
  destruct (util_sign_verify HM (File name) k x secret a h typ msg pb G PK IA KT ND U) as (inner & S & A & V & SG). exists inner. split; [exact S|]. split; [exact V|]. intro LI.
  destruct (encrypt_decrypt_one P R AES HM HL DR ka e k x secret inner inner IK IE PK LX (utf8_encode_ascii _ A) LI) as (outer & EN & DE). exists outer. split.
  - unfold jwkutil. rewrite (source_keys (File name) k) by (exact G || reflexivity). cbn [run_of nest_options o_file o_message o_sign o_encrypt o_alg o_type o_encalg o_encenc].
    rewrite message_text by exact ND. cbn [run_of]. change (oval (Some a)) with (VStr a). change (oval (Some ka)) with (VStr ka). change (oval (Some e)) with (VStr e). rewrite SG. cbn [bind]. rewrite EN. reflexivity.
  - destruct G as (N & t & RD & L). unfold jwdecrypt, dec_keys. cbn [jwdecrypt_options d_url d_jwk d_rsa d_file d_message]. change (given None) with (@None ustr). rewrite given_some by exact N. rewrite RD. cbn [bind]. rewrite L. cbn [loaded run_of].
    change (oval (Some outer)) with (VStr outer). rewrite (DE sent k x PK eq_refl). reflexivity.
Qed.

Theorem jwenc_jwdecrypt : forall name k x secret ka e msg m, gives (File name) k -> plain_key k x secret -> Z.of_nat (length x) < 2 ^ 50 ->
  In ka KW_ALGS -> In e ENCS -> msg <> lit "-" -> utf8_encode msg = Ok m -> Z.of_nat (length m) <= 16 * 2 ^ 32 ->
  exists tok, jwenc_main P R read imp stdin (jwenc_options name ka e msg) = Printed [VStr tok] /\ jwdecrypt P sent read imp (jwdecrypt_options name tok) = Printed [VBytes m].
Proof.
  intros name k x secret ka e msg m G PK LX IK IE ND U LM.
  destruct (encrypt_decrypt_one P R AES HM HL DR ka e k x secret msg m IK IE PK LX U LM) as (tok & EN & DE). exists tok. destruct G as (N & t & RD & L).
  destruct (ENCS_text e IE) as [E1 E2]. destruct (KW_text ka IK) as [K1 K2]. split.
  - unfold jwenc_main, enc_keys. cbn [jwenc_options e_url e_jwk e_xurl e_xfile e_rsa e_alg e_enc e_file e_message]. change (given None) with (@None ustr). rewrite !given_some by assumption. rewrite RD. cbn [bind]. rewrite L. cbn [loaded run_of].
    rewrite E2, K2. cbn [negb]. rewrite message_text by exact ND. cbn [run_of]. rewrite EN. reflexivity.
  - unfold jwdecrypt, dec_keys. cbn [jwdecrypt_options d_url d_jwk d_rsa d_file d_message]. change (given None) with (@None ustr). rewrite given_some by exact N. rewrite RD. cbn [bind]. rewrite L. cbn [loaded run_of].
    change (oval (Some tok)) with (VStr tok). rewrite (DE sent k x PK eq_refl). reflexivity.
Qed.

(** jwkutil -d prints nothing. *)
Theorem util_decrypt_silent : forall o lines, o_sign o = false -> o_encrypt o = false -> o_decrypt o = true -> jwkutil P E R sent read imp stdin o <> Printed lines.
Proof.
  intros o lines S N D H. unfold jwkutil in H. destruct (util_keys P read imp o) as [[|k ks]|]; cbn [run_of] in H; try discriminate.
  destruct (message read stdin (o_file o) (o_message o) [10]) as [msg|]; cbn [run_of] in H; [|discriminate]. rewrite S, N, D in H.
  destruct (decrypt P sent msg (k :: ks)) as [b|]; cbn [bind run_of] in H; [|discriminate]. destruct (two_values b) as [[m r]|]; cbn [bind run_of] in H; [|discriminate].
  destruct (o_verify o); [|discriminate]. unfold verify, verify_compact, unpack in H. cbn [bind snd run_of] in H. discriminate.
Qed.

(** What jwkutil -d does instead: a message of other than two octets is a ValueError, one of two octets is lost. *)
Theorem util_decrypt_outcome : forall o secret tok k m, o_sign o = false -> o_encrypt o = false -> o_decrypt o = true -> o_verify o = false ->
  o_rsa o = None -> o_hmac o = Some secret -> o_jwk o = None -> o_jwks o = None -> o_url o = None -> o_file o = None -> o_message o = Some tok ->
  secret <> [] -> tok <> lit "-" -> sym_new [] (VStr secret) = Ok k -> decrypt P sent (VStr tok) [k] = Ok m ->
  jwkutil P E R sent read imp stdin o = if Nat.eqb (length m) 2 then Silent else Failed EValueError.
Proof.
  intros o secret tok k m S N D V O1 O2 O3 O4 O5 O6 O7 SE TK K DE.
  assert (G : given (Some secret) = Some secret) by (destruct secret; [congruence|reflexivity]).
  unfold jwkutil, util_keys, opt_step. rewrite O1, O2, O3, O4, O5, G. cbn [given bind]. rewrite K. cbn [bind app run_of].
  unfold message. rewrite O6, O7. cbn [given]. assert (Z : zs_eqb tok (lit "-") = false) by (apply not_true_is_false; intros Z; apply zs_eqb_eq in Z; congruence).
  rewrite Z. cbn [run_of]. rewrite S, N, D, V, DE. cbn [bind].
  destruct m as [|a [|b [|c r]]]; reflexivity.
Qed.

(** jwkutil -s without -a never signs. *)
Theorem util_unsigned : forall o lines, o_sign o = true -> o_encrypt o = false -> given (o_alg o) = None -> jwkutil P E R sent read imp stdin o = Printed lines ->
  exists h p, lines = [VStr (h ++ 46 :: p ++ [46])] /\ ~ In 46 h /\ ~ In 46 p.
Proof.
  intros o lines S N A H. unfold jwkutil in H. destruct (util_keys P read imp o) as [[|k ks]|]; cbn [run_of] in H; try discriminate.
  destruct (message read stdin (o_file o) (o_message o) [10]) as [msg|] eqn:M; cbn [run_of] in H; [|discriminate]. rewrite S, N in H.
  destruct (sign P E msg (k :: ks) (oval (o_alg o)) (oval (o_type o))) as [t|] eqn:SG; cbn [bind run_of] in H; [|discriminate]. injection H as <-.
  assert (FA : truthy (oval (o_alg o)) = false) by (destruct (o_alg o) as [[|c r]|]; [reflexivity|discriminate A|reflexivity]).
  assert (MW : octets_wf msg). { intros b ->. unfold message in M. destruct (given (o_file o)) as [f|]; [destruct (read f); discriminate M|]. destruct (o_message o) as [tx|]; [destruct (zs_eqb tx (lit "-"))|]; discriminate M. }
  unfold sign in SG. change (jws_init P msg [(lit "alg", oval (o_alg o))] None) with (Ok {| s_msg := msg; s_dict := [(lit "alg", oval (o_alg o))]; s_jwk := None; s_jwt := None; s_key := None |}) in SG.
  cbn [bind] in SG. cbv zeta in SG. cbn [s_msg s_dict s_jwk s_jwt s_key] in SG.
  match type of SG with snd (sign_compact P E ?s0 _ _) = _ => set (s := s0) in SG end.
  assert (DA : dget (s_dict s) (lit "alg") = Some (oval (o_alg o))) by (unfold s; destruct (truthy (oval (o_type o))); reflexivity).
  assert (SM : s_msg s = msg) by (unfold s; destruct (truthy (oval (o_type o))); reflexivity).
  assert (CH : chosen s (Some (k :: ks)) = VStr (lit "none")) by (unfold chosen; rewrite DA, FA; reflexivity).
  destruct (sign_compact P E s (Some (k :: ks)) []) as [s' r] eqn:SC. cbn [snd] in SG. subst r.
  apply sign_inv in SC. destruct SC as (_ & [[_ (he & pb & UT)]|(he & pb & a & g & k0 & t0 & kid & input & i & m & sg & ST)]).
  - destruct UT as [UH UP (ts & UT & ->)]. destruct (header_ascii _ _ UH) as (HA & HD & _).
    rewrite SM in UP. pose proof (octets_ok _ _ MW UP) as BP.
    assert (AA : forallb ascii [he; b64e pb; []] = true) by (cbn [forallb]; rewrite HA, b64e_ascii by exact BP; reflexivity).
    rewrite (mapM_utf8_ascii _ AA) in UT. injection UT as <-. exists he, (b64e pb). cbn [join]. split; [rewrite <- ?app_assoc; reflexivity|]. split; [exact HD|apply b64e_no_dot; exact BP].
  - exfalso. destruct ST as [SA SS _ _ _ _ _ _ _ _ _ _ _]. rewrite CH in SA. injection SA as <-. discriminate SS.
Qed.
End Pipeline.
