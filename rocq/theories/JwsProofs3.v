(** * Proofs about JSON Web Signatures: signing *)
From Coq Require Import ZArith List Bool Lia ZifyBool.
From Verif Require Import Base BaseProofs Utf8 Codec CodecProofs Json JsonProofs Jwt JwtProofs Prims Elliptic Ecc EcAux EccProofs PvalEq Jwk JwkProofs JwkProofs2 Jws JwsProofs JwsProofs2.
Import ListNotations.
Open Scope Z_scope.

(** ** The octets of a message *)

(** Bytes as they are, text as UTF-8, any other value as compact JSON. *)
Definition octets_of (v : pval) : res bytes :=
  match v with
  | VBytes b => Ok b
  | VStr s => utf8_encode s
  | VInt _ | VBool _ => Raise ETypeError
  | _ => w <- b2s_conv v;; t <- dumps false w;; utf8_encode t
  end.
Lemma json_octets : forall m, (v <- m;; t <- dumps false v;; b <- utf8_encode t;; Ok (b64e b)) = (b <- (w <- m;; t <- dumps false w;; utf8_encode t);; Ok (b64e b)).
Proof. intros [w|]; [|reflexivity]. cbn [bind]. destruct (dumps false w); reflexivity. Qed.
Lemma item_octets : forall v, b64encode_item v = (b <- octets_of v;; Ok (b64e b)).
Proof. intro v. destruct v; cbn [b64encode_item octets_of]; try reflexivity; apply json_octets. Qed.

(** Python's bytes values hold octets. *)
Definition octets_wf (v : pval) : Prop := forall b, v = VBytes b -> bytes_ok b = true.

Lemma utf8_bytes : forall s b, utf8_encode s = Ok b -> bytes_ok b = true.
Proof. intros s b H. eapply utf8_encode_ok. exact H. Qed.
Lemma octets_ok : forall v b, octets_wf v -> octets_of v = Ok b -> bytes_ok b = true.
Proof.
  intros v b W H. destruct v; cbn [octets_of] in H; try discriminate; try (eapply utf8_bytes; exact H); try (injection H as <-; apply W; reflexivity);
    match type of H with bind ?m _ = _ => destruct m as [w|]; [|discriminate] end; cbn [bind] in H; destruct (dumps false w) as [t|]; try discriminate; eapply utf8_bytes; exact H.
Qed.

(** ** The header *)

Definition sign_header (protected : dict) (alg : pval) (ko : option jwk) (typ : option pval) : dict :=
  let x := dset protected (lit "alg") alg in
  let x := match ko with Some k => if truthy (k_kid k) then dset x (lit "kid") (k_kid k) else x | None => x end in
  match typ with Some t => dset x (lit "typ") t | None => x end.

(** C26 as a table. *)
Lemma sign_header_get : forall protected alg ko typ,
  dget (sign_header protected alg ko typ) (lit "alg") = Some alg /\
  dget (sign_header protected alg ko typ) (lit "kid") = match ko with Some k => if truthy (k_kid k) then Some (k_kid k) else dget protected (lit "kid") | None => dget protected (lit "kid") end /\
  dget (sign_header protected alg ko typ) (lit "typ") = match typ with Some t => Some t | None => dget protected (lit "typ") end /\
  (forall n, n <> lit "alg" -> n <> lit "kid" -> n <> lit "typ" -> dget (sign_header protected alg ko typ) n = dget protected n).
Proof.
  intros protected alg ko typ. unfold sign_header.
  repeat split; [..|intros n N1 N2 N3]; destruct ko as [k|]; try (destruct (truthy (k_kid k))); destruct typ as [t|]; rewrite ?dget_dset; lits; try reflexivity;
    rewrite ?(proj2 (zs_eqb_neq _ _) (not_eq_sym N1)), ?(proj2 (zs_eqb_neq _ _) (not_eq_sym N2)), ?(proj2 (zs_eqb_neq _ _) (not_eq_sym N3)); reflexivity.
Qed.
Lemma dset_nonempty : forall d n (v : pval), dset d n v <> [].
Proof. intros [|[k w] d] n v; cbn; [discriminate|]. destruct (zs_eqb k n); discriminate. Qed.
Lemma sign_header_nonempty : forall protected alg ko typ, sign_header protected alg ko typ <> [].
Proof. intros. unfold sign_header. destruct ko as [k|]; [destruct (truthy (k_kid k))|]; destruct typ; apply dset_nonempty. Qed.

(** The algorithm chosen. *)
Definition chosen (s : jws) (keys : option (list jwk)) : pval :=
  let a := match dget (s_dict s) (lit "alg") with
           | Some a => a
           | None => match keys with Some [k] => k_alg k | _ => VNone end
           end in
  if truthy a then a else VStr (lit "none").
Definition after_choice (s : jws) (keys : option (list jwk)) : jws := fst (pick_alg s keys).
Lemma pick_alg_chosen : forall s keys, snd (pick_alg s keys) = chosen s keys /\ truthy (chosen s keys) = true /\
  dget (s_dict (after_choice s keys)) (lit "alg") = Some (chosen s keys) /\ s_jwk (after_choice s keys) = s_jwk s /\ s_msg (after_choice s keys) = s_msg s /\
  s_jwt (after_choice s keys) = s_jwt s /\ (forall n, n <> lit "alg" -> dget (s_dict (after_choice s keys)) n = dget (s_dict s) n).
Proof.
  intros s keys. unfold after_choice, pick_alg, chosen.
  destruct (dget (s_dict s) (lit "alg")) as [a|] eqn:D.
  - destruct (truthy a) eqn:T; cbn [fst snd s_dict set_alg s_jwk s_msg s_jwt]; repeat split; try assumption; try reflexivity; [rewrite dget_dset; reflexivity|].
    intros n N. rewrite dget_dset, (proj2 (zs_eqb_neq _ _) (not_eq_sym N)). reflexivity.
  - destruct keys as [[|k [|k2 r]]|]; cbn [truthy fst snd s_dict set_alg s_jwk s_msg s_jwt]; try (repeat split; try reflexivity; [rewrite dget_dset; reflexivity|];
      intros n N; rewrite dget_dset, (proj2 (zs_eqb_neq _ _) (not_eq_sym N)); reflexivity).
    destruct (truthy (k_alg k)) eqn:T; [rewrite T|cbn [truthy]]; cbn [fst snd s_dict set_alg s_jwk s_msg s_jwt]; repeat split; try assumption; try reflexivity; try (rewrite dget_dset; reflexivity);
      intros n N; rewrite dget_dset, (proj2 (zs_eqb_neq _ _) (not_eq_sym N)); reflexivity.
Qed.

Lemma signing_kid : forall s keys, kid_in_force (after_choice s keys) = kid_in_force s.
Proof.
  intros s keys. destruct (pick_alg_chosen s keys) as (_ & _ & _ & _ & _ & J & O). unfold kid_in_force. rewrite O, J by (intro X; vm_compute in X; discriminate). reflexivity.
Qed.

(** What a produced token is made of. *)
Record unsigned_token (s : jws) (protected : dict) (tok : ustr) (he pb : bytes) : Prop := {
  un_header : b64encode_item (VDict (sign_header protected (VStr (lit "none")) None (dget (s_dict s) (lit "typ")))) = Ok he;
  un_payload : octets_of (s_msg s) = Ok pb;
  un_parts : exists ts, mapM utf8_decode [he; b64e pb; []] = Ok ts /\ tok = join 46 ts
}.
Record signed_token (P : prims) (E : entropy) (s : jws) (keys : option (list jwk)) (protected : dict) (tok : ustr) (he pb : bytes) (a : ustr) (g : signer) (k : jwk) (t : ustr) (kid : pval) (input i : bytes) (m : material) (sg : bytes) : Prop := {
  sn_alg : chosen s keys = VStr a;
  sn_signer : dget SIGNERS a = Some g;
  sn_family : alg2keytype (VStr a) = Ok (Some t);
  sn_kid : kid_in_force s = Ok kid;
  sn_offered : offered s keys k;
  sn_suitable : suitable t kid (VStr (lit "sig")) (VStr a) k;
  sn_header : b64encode_item (VDict (sign_header protected (VStr a) (Some k) (dget (s_dict s) (lit "typ")))) = Ok he;
  sn_payload : octets_of (s_msg s) = Ok pb;
  sn_input : exists ts, mapM utf8_decode [he; b64e pb] = Ok ts /\ input = join 46 ts;
  sn_octets : utf8_encode input = Ok i;
  sn_material : get_key k true = Ok m;
  sn_sign : signer_sign P g E i m = Ok sg;
  sn_token : tok = input ++ 46 :: b64e sg
}.

Lemma pack_items : forall j d items, j_headers j = VDict d -> d <> [] -> items <> [] ->
  pack j items VNone = (e <- b64encode_item (VDict d);; es <- mapM b64encode_item items;; ts <- mapM utf8_decode (e :: es);; Ok (join 46 ts, {| j_headers := j_headers j; j_b64 := e :: es; j_part := VDict d :: items |})).
Proof.
  intros j d items H D I. unfold pack. rewrite H. cbn [truthy]. destruct d as [|x d]; [congruence|]. destruct items as [|y items]; [congruence|]. reflexivity.
Qed.

Lemma alg_keys_inv : forall P s keys use protected s1 ko x alg, alg_keys P s keys use protected = (s1, Ok (ko, x, alg)) ->
  s1 = after_choice s keys /\ alg = chosen s keys /\ x = sign_header protected alg ko None /\
  (ko = None -> exists l, py_lower alg = Ok l /\ pval_eqb l (VStr (lit "none")) = true) /\
  (forall k, ko = Some k -> exists t kid, alg2keytype alg = Ok (Some t) /\ kid_in_force s = Ok kid /\ offered s keys k /\ suitable t kid use alg k /\ pval_eqb alg (VStr (lit "none")) = false).
Proof.
  intros P s keys use protected s1 ko x alg H. unfold alg_keys in H. destruct (pick_alg s keys) as [s0 al] eqn:PA.
  destruct (pick_alg_chosen s keys) as (C1 & C2 & C3 & C4 & C5 & C6 & C7). rewrite PA in C1. cbn [snd] in C1. subst al.
  assert (E0 : s0 = after_choice s keys) by (unfold after_choice; rewrite PA; reflexivity).
  apply pair_equal_spec in H. destruct H as [<- H]. destruct (jws_keys P s0 keys) as [kl|] eqn:K; [|discriminate]. cbn [bind] in H.
  destruct (pick_keys s0 kl use (chosen s keys)) as [ks|] eqn:Q; [|discriminate]. cbn [bind] in H.
  split; [exact E0|]. destruct ks as [|k0 ks].
  - destruct (py_lower (chosen s keys)) as [l|] eqn:L; [|discriminate]. cbn [bind] in H. destruct (pval_eqb l (VStr (lit "none"))) eqn:N; [|discriminate].
    injection H as <- <- <-. split; [reflexivity|]. split; [reflexivity|]. split; [|discriminate]. intros _. exists l. split; [exact L|exact N].
  - injection H as <- <- <-. split; [reflexivity|]. split; [reflexivity|]. split; [discriminate|]. intros k E1. injection E1 as <-.
    destruct (pick_keys_inv _ _ _ _ _ k0 Q (or_introl eq_refl)) as (a & t & kid & Q1 & Q2 & Q3 & Q4 & Q5). unfold alg_or in Q1. rewrite C2 in Q1. injection Q1 as <-.
    exists t, kid. split; [exact Q2|]. split; [rewrite <- Q3, E0; symmetry; apply signing_kid|]. split; [|split; [exact Q5|]].
    2: { unfold pick_keys in Q. rewrite C2 in Q. cbn [bind] in Q. destruct (pval_eqb (chosen s keys) (VStr (lit "none"))); [discriminate|reflexivity]. }
    pose proof (jws_keys_offered _ _ _ _ _ K Q4) as O. unfold offered in *. rewrite E0, C4 in O. exact O.
Qed.

Theorem sign_inv : forall P E s keys protected s' tok, sign_compact P E s keys protected = (s', Ok tok) ->
  s' = after_choice s keys /\
  ((chosen s keys = VStr (lit "none") /\ exists he pb, unsigned_token s protected tok he pb) \/
   (exists he pb a g k t kid input i m sg, signed_token P E s keys protected tok he pb a g k t kid input i m sg)).
Proof.
  intros P E s keys protected s' tok H. unfold sign_compact in H. destruct (alg_keys P s keys (VStr (lit "sig")) protected) as [s1 r] eqn:AK.
  apply pair_equal_spec in H. destruct H as [<- H]. destruct r as [[[ko x] alg]|e]; [|discriminate]. cbn [bind] in H. apply alg_keys_inv in AK. destruct AK as (-> & EA & -> & KN & KS). split; [reflexivity|].
  destruct (pick_alg_chosen s keys) as (_ & C2 & _ & _ & C5 & _ & C7). rewrite <- EA in C2.
  rewrite (C7 (lit "typ")) in H by (intro X; vm_compute in X; discriminate). rewrite C5 in H.
  change (match dget (s_dict s) (lit "typ") with Some t => dset (sign_header protected alg ko None) (lit "typ") t | None => sign_header protected alg ko None end)
    with (sign_header protected alg ko (dget (s_dict s) (lit "typ"))) in H.
  set (hdr := sign_header protected alg ko (dget (s_dict s) (lit "typ"))) in *.
  assert (HA : dget hdr (lit "alg") = Some alg) by (apply sign_header_get).
  destruct (dmem hdr (lit "self")); [discriminate|].
  assert (JI : jwt_init hdr = (e <- b64encode_item (VDict hdr);; p <- b64d e;; Ok {| j_headers := VDict hdr; j_b64 := [e]; j_part := [VBytes p] |})).
  { unfold jwt_init. rewrite HA, C2. reflexivity. }
  rewrite JI in H. clear JI. destruct (b64encode_item (VDict hdr)) as [he|] eqn:HE; [|discriminate]. cbn [bind] in H. destruct (b64d he) as [p|]; [|discriminate]. cbn [bind] in H.
  set (j := {| j_headers := VDict hdr; j_b64 := [he]; j_part := [VBytes p] |}) in *.
  assert (NE : hdr <> []) by apply sign_header_nonempty.
  destruct (pval_eqb alg (VStr (lit "none"))) eqn:N.
  - apply eqb_str_r in N. subst alg. left. split; [congruence|]. rewrite (pack_items j hdr) in H by (reflexivity || exact NE || discriminate). rewrite HE in H. cbn [bind mapM] in H.
    rewrite item_octets in H. destruct (octets_of (s_msg s)) as [pb|] eqn:O; [|discriminate]. cbn [bind b64encode_item] in H.
    change (utf8_encode []) with (@Ok bytes []) in H. cbn [bind] in H. change (b64e []) with (@nil Z) in H.
    assert (ko = None) as KO.
    { destruct ko as [k|]; [|reflexivity]. exfalso. destruct (KS k eq_refl) as (t & kid & _ & _ & _ & _ & X). discriminate. }
    subst ko. unfold hdr in HE. try rewrite N in HE. exists he, pb. constructor; [exact HE|exact O|].
    destruct (utf8_decode he) as [t1|] eqn:D1; [|discriminate]. cbn [bind mapM] in H. destruct (utf8_decode (b64e pb)) as [t2|] eqn:D2; [|discriminate]. cbn [bind mapM utf8_decode] in H.
    exists [t1; t2; []]. split; [cbn [mapM]; rewrite D1; cbn [bind]; rewrite D2; reflexivity|]. injection H as <-. reflexivity.
  - right. destruct alg as [| | | |a| | |]; try discriminate. destruct (dget SIGNERS a) as [g|] eqn:G; [|discriminate].
    rewrite (pack_items j hdr) in H by (reflexivity || exact NE || discriminate). rewrite HE in H. cbn [bind mapM] in H.
    rewrite item_octets in H. destruct (octets_of (s_msg s)) as [pb|] eqn:O; [|discriminate]. cbn [bind] in H.
    destruct (utf8_decode he) as [t1|] eqn:D1; [|discriminate]. cbn [bind mapM] in H. destruct (utf8_decode (b64e pb)) as [t2|] eqn:D2; [|discriminate]. cbn [bind mapM utf8_decode] in H.
    destruct (utf8_encode (join 46 [t1; t2])) as [i|] eqn:U; [|discriminate]. cbn [bind] in H. destruct ko as [k|]; [|discriminate].
    destruct (get_key k true) as [m|] eqn:M; [|discriminate]. cbn [bind] in H. destruct (signer_sign P g E i m) as [sg|] eqn:S; [|discriminate]. cbn [bind] in H. injection H as <-.
    destruct (KS k eq_refl) as (t & kid & T & Kd & Of & Su & _).
    exists he, pb, a, g, k, t, kid, (join 46 [t1; t2]), i, m, sg. constructor; try assumption; [congruence| |reflexivity].
    exists [t1; t2]. split; [cbn [mapM]; rewrite D1; cbn [bind]; rewrite D2; reflexivity|reflexivity].
Qed.

(** ** The produced text *)

Lemma header_encoded : forall d d' he, b64encode_item (VDict d) = Ok he -> b2s_conv (VDict d) = Ok (VDict d') -> jsonable (VDict d') = true ->
  exists t, he = b64e t /\ ascii t = true /\ loads t = Ok (VDict d').
Proof.
  intros d d' he H C J. destruct (encode_header d d' C J) as (t & T1 & T2 & T3 & T4). exists t. rewrite H in T4. injection T4 as ->.
  split; [reflexivity|]. split; [apply allp_ascii; exact T2|exact T3].
Qed.

Lemma signed_text : forall P E s keys protected tok he pb a g k t kid input i m sg hd', signed_token P E s keys protected tok he pb a g k t kid input i m sg ->
  octets_wf (s_msg s) -> b2s_conv (VDict (sign_header protected (VStr a) (Some k) (dget (s_dict s) (lit "typ")))) = Ok (VDict hd') -> jsonable (VDict hd') = true ->
  exists h, ascii h = true /\ loads h = Ok (VDict hd') /\ bytes_ok pb = true /\ i = b64e h ++ 46 :: b64e pb /\ ascii i = true /\ tok = mk_token h [pb; sg].
Proof.
  intros P E s keys protected tok he pb a g k t kid input i m sg hd' S W C J. destruct S as [_ _ _ _ _ _ SH SP (ts & ST & ->) SO _ _ ->].
  destruct (header_encoded _ _ _ SH C J) as (h & -> & A & L). exists h. pose proof (octets_ok _ _ W SP) as B. split; [exact A|]. split; [exact L|]. split; [exact B|].
  assert (AA : forallb ascii (map b64e [h; pb]) = true) by (apply b64e_all_ascii; cbn [forallb]; rewrite (ascii_bytes _ A), B; reflexivity).
  change [b64e h; b64e pb] with (map b64e [h; pb]) in ST. rewrite mapM_utf8_ascii in ST by exact AA. injection ST as <-.
  pose proof (ascii_join _ AA) as AJ. cbn [map join] in *. rewrite utf8_encode_ascii in SO by exact AJ. injection SO as <-.
  split; [reflexivity|]. split; [exact AJ|]. unfold mk_token. cbn [map join]. rewrite <- app_assoc. reflexivity.
Qed.
Lemma unsigned_text : forall s protected tok he pb hd', unsigned_token s protected tok he pb ->
  octets_wf (s_msg s) -> b2s_conv (VDict (sign_header protected (VStr (lit "none")) None (dget (s_dict s) (lit "typ")))) = Ok (VDict hd') -> jsonable (VDict hd') = true ->
  exists h, ascii h = true /\ loads h = Ok (VDict hd') /\ bytes_ok pb = true /\ tok = mk_token h [pb; []].
Proof.
  intros s protected tok he pb hd' S W C J. destruct S as [SH SP (ts & ST & ->)].
  destruct (header_encoded _ _ _ SH C J) as (h & -> & A & L). exists h. pose proof (octets_ok _ _ W SP) as B. split; [exact A|]. split; [exact L|]. split; [exact B|].
  assert (AA : forallb ascii (map b64e [h; pb; []]) = true) by (apply b64e_all_ascii; cbn [forallb]; rewrite (ascii_bytes _ A), B; reflexivity).
  change [b64e h; b64e pb; []] with (map b64e [h; pb; []]) in ST. rewrite mapM_utf8_ascii in ST by exact AA. injection ST as <-. reflexivity.
Qed.

(** ** Keys that work *)

(** What the key signs it also verifies. *)
Definition works (P : prims) (g : signer) (k : jwk) : Prop := forall E i m sg, bytes_ok i = true -> get_key k true = Ok m -> signer_sign P g E i m = Ok sg ->
  bytes_ok sg = true /\ exists m', get_key k false = Ok m' /\ signer_verify P g i sg m' = Ok tt.
(** Checking a signature with the key ends in acceptance or refusal. *)
Definition clean (P : prims) (g : signer) (k : jwk) : Prop := forall i sg,
  let r := (m <- get_key k false;; signer_verify P g i sg m) in r = Ok tt \/ r = Raise EBadSignature \/ r = Raise EIndexError.

Lemma works_hmac : forall P h k secret, hmac_law P -> bytes_ok secret = true -> get_key k true = Ok (MObj (OVal (VBytes secret))) -> get_key k false = Ok (MObj (OVal (VBytes secret))) ->
  works P (HMACSigner h) k.
Proof.
  intros P h k secret L B G1 G2 E i m sg BI M S. rewrite G1 in M. injection M as <-. cbn in S. injection S as <-. split; [apply L; assumption|].
  exists (MObj (OVal (VBytes secret))). split; [exact G2|]. cbn. rewrite (proj2 (constant_time_compare_eq _ _) eq_refl). reflexivity.
Qed.
Lemma clean_hmac : forall P h k secret, get_key k false = Ok (MObj (OVal (VBytes secret))) -> clean P (HMACSigner h) k.
Proof. intros P h k secret G i sg r. unfold r. rewrite G. cbn. destruct (constant_time_compare _ _); auto. Qed.
Lemma works_rsa : forall P s h k key, rsa_sign_law P key -> get_key k true = Ok (MObj (ORsa key)) -> get_key k false = Ok (MObj (ORsa key)) -> works P (RSASigner s h) k.
Proof.
  intros P s h k key L G1 G2 E i m sg BI M S. rewrite G1 in M. injection M as <-. cbn in S. destruct (L s h (e_oct E) i sg BI S) as (B & V & _). split; [exact B|].
  exists (MObj (ORsa key)). split; [exact G2|]. cbn. rewrite V. reflexivity.
Qed.
Lemma works_ec : forall P h bits c k d x y, hash_law P -> In bits [256; 384; 521] -> nist_curve bits = Ok c -> 0 < d < c_N c -> public_key_for c d = Some (x, y) ->
  get_key k true = Ok (MObj (OVal (VInt d))) -> get_key k false = Ok (MPoint (VInt x) (VInt y)) -> works P (DSASigner h bits) k.
Proof.
  intros P h bits c k d x y L IB C D PK G1 G2 E i m sg BI M S. rewrite G1 in M. injection M as <-. cbn [signer_sign as_priv as_int] in S. rewrite C in S. cbn [bind] in S.
  assert (N : exists name, by_name name = Ok c).
  { cbn [In] in IB. destruct IB as [<-|[<-|[<-|[]]]]; [exists (lit "P-256")|exists (lit "P-384")|exists (lit "P-521")]; exact C. }
  destruct N as (name & N). assert (H0 : 0 <= be2z (p_hash P h i)) by (apply be2z_bound; apply L; exact BI).
  split; [eapply sign_length_nist; [exact N| |exact S]; intros k' X; discriminate|].
  exists (MPoint (VInt x) (VInt y)). split; [exact G2|]. cbn [signer_verify as_point as_int]. rewrite C. cbn [bind]. rewrite <- PK.
  rewrite (sign_verify_nist name c N (e_fuel E) _ d None (e_bits E) sg H0 D) by (congruence || exact S). reflexivity.
Qed.

Lemma try_keys_works : forall P g i sg k ks, In k ks -> (m <- get_key k false;; signer_verify P g i sg m) = Ok tt ->
  (forall k', In k' ks -> k' = k \/ let r := (m <- get_key k' false;; signer_verify P g i sg m) in r = Ok tt \/ r = Raise EBadSignature \/ r = Raise EIndexError) ->
  exists k', try_keys P g i sg ks = Ok k'.
Proof.
  induction ks as [|k1 ks IH]; intros I V C; [destruct I|]. cbn [try_keys]. destruct (C k1 (or_introl eq_refl)) as [->|R].
  - rewrite V. eauto.
  - cbv zeta in R. assert (X : k1 = k -> exists k', match (m <- get_key k1 false;; signer_verify P g i sg m) with Ok _ => Ok k1 | Raise EBadSignature | Raise EIndexError => try_keys P g i sg ks | Raise e => Raise e end = Ok k').
    { intros ->. rewrite V. eauto. }
    destruct R as [R|R]; [rewrite R; eauto|]. destruct I as [I|I]; [exact (X I)|].
    assert (Y : exists k', try_keys P g i sg ks = Ok k') by (apply IH; [exact I|exact V|intros k' I'; apply C; right; exact I']).
    destruct R as [R|R]; rewrite R; exact Y.
Qed.
