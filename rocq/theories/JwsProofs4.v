(** * Proofs about JSON Web Signatures: what is signed verifies *)
From Coq Require Import ZArith List Bool Lia ZifyBool.
From Verif Require Import Base BaseProofs Utf8 Codec CodecProofs Json JsonProofs Jwt JwtProofs Prims Elliptic Ecc PvalEq Jwk JwkProofs JwkProofs2 Jws JwsProofs JwsProofs2 JwsProofs3.
Import ListNotations.
Open Scope Z_scope.

(** ** The payload as the receiver sees it *)

(** Text if the octets are UTF-8; the JSON value it denotes, if any, unless the content type is something other than JWT. *)
Definition payload_view (h : dict) (pb : bytes) : pval :=
  let raw := match utf8_decode pb with Ok t => VStr t | Raise _ => VBytes pb end in
  let json := match loads_any raw with Ok v => v | Raise _ => raw end in
  match dget h (lit "cty") with
  | Some (VStr c) => if zs_eqb (lower c) (lit "jwt") then json else raw
  | _ => json
  end.
(** The content type, if any, is text. *)
Definition text_cty (h : dict) : Prop := dget h (lit "cty") = None \/ exists c, dget h (lit "cty") = Some (VStr c).

Lemma payload_viewed : forall u h pb, j_headers u = VDict h -> nth_error (j_part u) 1 = Some (VBytes pb) -> text_cty h -> payload u = Ok (payload_view h pb).
Proof.
  intros u h pb H N T. unfold payload_view.
  assert (AS : as_unicode (VBytes pb) = match utf8_decode pb with Ok t => VStr t | Raise _ => VBytes pb end) by reflexivity.
  set (raw := match utf8_decode pb with Ok t => VStr t | Raise _ => VBytes pb end) in *.
  assert (V : match loads_any raw with Ok v => Ok v | Raise e => if is_ValueError e then Ok raw else Raise e end = Ok (match loads_any raw with Ok v => v | Raise _ => raw end)).
  { destruct (loads_any_value_error raw) as [[w X]|(x & X & Y)].
    - unfold raw. destruct (utf8_decode pb); eauto.
    - rewrite X. reflexivity.
    - rewrite X, Y. reflexivity. }
  destruct T as [T|(c & T)].
  - rewrite (payload_json_case u h _ H N) by (left; exact T). rewrite AS, V, T. reflexivity.
  - rewrite T. destruct (zs_eqb (lower c) (lit "jwt")) eqn:E.
    + apply zs_eqb_eq in E. rewrite (payload_json_case u h _ H N) by (right; exists c; auto). rewrite AS. exact V.
    + apply zs_eqb_neq in E. rewrite (payload_other_case u h _ H N) by (exists c; auto). rewrite AS. reflexivity.
Qed.

(** A JSON object or array comes back as itself. *)
Lemma view_json : forall h v pb, match v with VList _ | VDict _ => True | _ => False end -> jsonable v = true -> dget h (lit "cty") = None -> octets_of v = Ok pb -> payload_view h pb = v.
Proof.
  intros h v pb S J C O. assert (O' : (w <- b2s_conv v;; t <- dumps false w;; utf8_encode t) = Ok pb) by (destruct v; try contradiction; exact O).
  rewrite (b2s_id v J) in O'. cbn [bind] in O'. destruct (loads_dumps false v J) as (t & T1 & T2 & T3). rewrite T1 in O'. cbn [bind] in O'.
  apply allp_ascii in T2. rewrite utf8_encode_ascii in O' by exact T2. injection O' as <-. unfold payload_view. rewrite C, utf8_decode_ascii by exact T2. cbn [loads_any]. rewrite T3. reflexivity.
Qed.

(** ** Headers *)

Lemma jsonable_dset : forall d n v, jsonable (VDict d) = true -> scalars n = true -> jsonable v = true -> jsonable (VDict (dset d n v)) = true.
Proof.
  intros d n v J N V. cbn [jsonable] in *. apply andb_true_iff in J. destruct J as [J1 J2]. rewrite dset_nodup by exact J1. cbn [andb].
  clear J1. induction d as [|[k w] d IH]; cbn [dset forallb fst snd] in *; [rewrite N, V; reflexivity|]. apply andb_true_iff in J2. destruct J2 as [J2 J3].
  destruct (zs_eqb k n) eqn:E; cbn [forallb fst snd].
  - rewrite J3, V. apply andb_true_iff in J2. destruct J2 as [-> _]. reflexivity.
  - rewrite J2. apply IH. exact J3.
Qed.

(** The caller's header, the key's kid and the instance's typ are JSON values. *)
Definition json_header (protected : dict) (s : jws) (keys : option (list jwk)) : Prop :=
  jsonable (VDict protected) = true /\ (forall t, dget (s_dict s) (lit "typ") = Some t -> jsonable t = true) /\ (forall k, offered s keys k -> jsonable (k_kid k) = true).

Lemma sign_header_json : forall protected s a ko keys, json_header protected s keys -> scalars a = true -> (forall k, ko = Some k -> offered s keys k) ->
  jsonable (VDict (sign_header protected (VStr a) ko (dget (s_dict s) (lit "typ")))) = true.
Proof.
  intros protected s a ko keys (J1 & J2 & J3) A K. unfold sign_header.
  assert (X : jsonable (VDict (dset protected (lit "alg") (VStr a))) = true) by (apply jsonable_dset; [exact J1|reflexivity|exact A]).
  assert (Y : jsonable (VDict (match ko with Some k => if truthy (k_kid k) then dset (dset protected (lit "alg") (VStr a)) (lit "kid") (k_kid k) else dset protected (lit "alg") (VStr a) | None => dset protected (lit "alg") (VStr a) end)) = true).
  { destruct ko as [k|]; [|exact X]. destruct (truthy (k_kid k)); [|exact X]. apply jsonable_dset; [exact X|reflexivity|apply J3; apply K; reflexivity]. }
  destruct (dget (s_dict s) (lit "typ")) as [t|]; [|exact Y]. apply jsonable_dset; [exact Y|reflexivity|apply J2; reflexivity].
Qed.

Lemma signers_scalars : forall a g, dget SIGNERS a = Some g -> scalars a = true.
Proof.
  intros a g H. destruct (signers_cases a g H) as [(h & _ & I)|[(s & h & _ & I)|(h & b & _ & I)]]; cbn [In hs_algs rs_algs es_algs] in I;
    repeat (destruct I as [I|I]; [injection I as <- _; try reflexivity; injection I as <- _ _; reflexivity|]); destruct I.
Qed.

(** C26: the header a receiver reads in a produced token. *)
Theorem produced_header : forall P E s keys protected s' tok, sign_compact P E s keys protected = (s', Ok tok) -> octets_wf (s_msg s) -> json_header protected s keys ->
  exists ko h64 rest, tok = h64 ++ 46 :: rest /\ ~ In 46 h64 /\
    header_of h64 = Ok (VDict (sign_header protected (chosen s keys) ko (dget (s_dict s) (lit "typ")))) /\
    match ko with None => chosen s keys = VStr (lit "none") | Some k => chosen s keys <> VStr (lit "none") /\ offered s keys k end.
Proof.
  intros P E s keys protected s' tok H W J. apply sign_inv in H. destruct H as (_ & [(N & he & pb & U)|(he & pb & a & g & k & t & kid & input & i & m & sg & S)]).
  - rewrite N. assert (HJ : jsonable (VDict (sign_header protected (VStr (lit "none")) None (dget (s_dict s) (lit "typ")))) = true) by (eapply sign_header_json; [exact J|reflexivity|discriminate]).
    destruct (unsigned_text _ _ _ _ _ _ U W (b2s_id _ HJ) HJ) as (h & A & L & B & ->).
    exists None, (b64e h), (b64e pb ++ 46 :: []). split; [reflexivity|]. split; [apply b64e_no_dot; apply ascii_bytes; exact A|]. split; [|reflexivity].
    unfold header_of. rewrite b64d_b64e by (apply ascii_bytes; exact A). cbn [bind]. rewrite utf8_decode_ascii by exact A. cbn [bind]. exact L.
  - pose proof (sn_alg _ _ _ _ _ _ _ _ _ _ _ _ _ _ _ _ _ S) as C. pose proof (sn_signer _ _ _ _ _ _ _ _ _ _ _ _ _ _ _ _ _ S) as G. pose proof (sn_offered _ _ _ _ _ _ _ _ _ _ _ _ _ _ _ _ _ S) as O. rewrite C.
    assert (HJ : jsonable (VDict (sign_header protected (VStr a) (Some k) (dget (s_dict s) (lit "typ")))) = true).
    { eapply sign_header_json; [exact J|eapply signers_scalars; exact G|]. intros k' X. injection X as <-. exact O. }
    destruct (signed_text _ _ _ _ _ _ _ _ _ _ _ _ _ _ _ _ _ _ S W (b2s_id _ HJ) HJ) as (h & A & L & B & _ & _ & ->).
    exists (Some k), (b64e h), (b64e pb ++ 46 :: b64e sg). split; [reflexivity|]. split; [apply b64e_no_dot; apply ascii_bytes; exact A|]. split.
    + unfold header_of. rewrite b64d_b64e by (apply ascii_bytes; exact A). cbn [bind]. rewrite utf8_decode_ascii by exact A. cbn [bind]. exact L.
    + split; [|exact O]. intro X. injection X as ->. vm_compute in G. discriminate.
Qed.

(** ** C14 *)

(** The verifying instance: no kid, and no algorithm or the token's. *)
Definition ready (v : jws) (a : ustr) : Prop :=
  (dget (s_dict v) (lit "alg") = None \/ dget (s_dict v) (lit "alg") = Some (VStr a)) /\ dget (s_dict v) (lit "kid") = None.

(** More generally: a kid equal to the token's. *)
Definition ready_for (v : jws) (a : ustr) (hd : dict) : Prop :=
  (dget (s_dict v) (lit "alg") = None \/ dget (s_dict v) (lit "alg") = Some (VStr a)) /\ (dget (s_dict v) (lit "kid") = None \/ dget (s_dict v) (lit "kid") = dget hd (lit "kid")).

Lemma in_picks : forall s keys use alg a t kid k, alg_or s alg = Some a -> pval_eqb a (VStr (lit "none")) = false -> alg2keytype a = Ok (Some t) -> kid_in_force s = Ok kid ->
  In k keys -> suitable t kid use a k ->
  exists out, pick_keys s (map Some keys) use alg = Ok out /\ In k out /\ forall k', In k' out -> In k' keys /\ suitable t kid use a k'.
Proof.
  intros s keys use alg a t kid k A N T K I S. destruct (pick_keys_spec s keys use alg a t kid A N T K) as (out & O & Pk). exists out. split; [exact O|].
  pose proof (picks_In _ _ _ _ Pk) as X. split; [apply X; auto|]. intros k' Y. apply X. exact Y.
Qed.

Lemma signers_not_none : forall a g, dget SIGNERS a = Some g -> lower a <> lit "none" /\ a <> lit "none".
Proof.
  intros a g H. destruct (signers_cases a g H) as [(h & _ & I)|[(s & h & _ & I)|(h & b & _ & I)]]; cbn [In hs_algs rs_algs es_algs] in I;
    repeat (destruct I as [I|I]; [injection I as <- _; try (split; intro X; vm_compute in X; discriminate X); injection I as <- _ _; split; intro X; vm_compute in X; discriminate X|]); destruct I.
Qed.

(** Verification of a token of the right shape. *)
Lemma verify_token : forall P g a t h hd pb sg keys k v an sigalg token, dget SIGNERS a = Some g -> alg2keytype (VStr a) = Ok (Some t) ->
  ascii h = true -> loads h = Ok (VDict hd) -> bytes_ok pb = true -> bytes_ok sg = true -> token = VStr (mk_token h [pb; sg]) \/ token = VBytes (mk_token h [pb; sg]) ->
  dget hd (lit "alg") = Some (VStr a) -> text_cty hd -> In k keys -> suitable t (kwarg hd (lit "kid") VNone) (VStr []) (VStr a) k ->
  (exists m', get_key k false = Ok m' /\ signer_verify P g (b64e h ++ 46 :: b64e pb) sg m' = Ok tt) ->
  (forall k', In k' keys -> k' = k \/ ~ suitable t (kwarg hd (lit "kid") VNone) (VStr []) (VStr a) k' \/ clean P g k') ->
  ready_for v a hd -> truthy sigalg = false \/ sigalg = VStr a ->
  exists v' k', verify_compact P v token (Some keys) an sigalg = (v', Ok (payload_view hd pb, Some k')) /\ In k' keys.
Proof.
  intros P g a t h hd pb sg keys k v an sigalg token G T A L B1 B2 TK HA CT I Su (m' & M1 & M2) Cl (R1 & R2) SA.
  destruct (unpack_mk_token h (VDict hd) [pb; sg] A L) as [U1 U2]; [cbn [forallb]; rewrite B1, B2; reflexivity|discriminate|].
  set (u := {| j_headers := VDict hd; j_b64 := map b64e (h :: [pb; sg]); j_part := map VBytes (h :: [pb; sg]) |}) in *.
  assert (U : unpack token = Ok u) by (destruct TK as [->| ->]; assumption). destruct (signers_not_none _ _ G) as [NN NN'].
  assert (Pl : payload u = Ok (payload_view hd pb)) by (apply payload_viewed; [reflexivity|reflexivity|exact CT]).
  unfold verify_compact. rewrite U. cbn [bind]. change (Nat.eqb (length (j_part u)) 3) with true. cbn match. change (j_headers u) with (VDict hd). cbn [py_get]. rewrite HA.
  assert (X : none_alg (VStr a) = Ok false) by (cbn [none_alg py_lower bind pval_eqb]; rewrite (proj2 (zs_eqb_neq _ _) NN); reflexivity). rewrite X. unfold verify_alg. cbn [s_dict set_jwt].
  assert (Y : dmem (s_dict v) (lit "alg") && truthy (VStr a) && negb (pval_eqb (kwarg (s_dict v) (lit "alg") VNone) (VStr a)) = false).
  { unfold dmem, kwarg. destruct R1 as [R1|R1]; rewrite R1; [reflexivity|]. cbn [pval_eqb]. rewrite zs_eqb_refl, andb_false_r. reflexivity. }
  rewrite Y. assert (Z : truthy sigalg && negb (pval_eqb sigalg (VStr a)) = false).
  { destruct SA as [SA|SA]; rewrite SA; [reflexivity|]. cbn [pval_eqb]. rewrite zs_eqb_refl. apply andb_false_r. }
  rewrite Z. unfold checked. assert (JK : jws_keys P (set_alg (set_jwt v u) (VStr a)) (Some keys) = Ok (map Some keys)) by (destruct keys; [destruct I|reflexivity]).
  rewrite JK. cbn [bind].
  assert (KF : kid_in_force (set_alg (set_jwt v u) (VStr a)) = Ok (kwarg hd (lit "kid") VNone)).
  { unfold kid_in_force, set_alg, set_jwt. cbn [s_dict s_jwt]. rewrite dget_dset. lits. cbn match. unfold kwarg. change (j_headers u) with (VDict hd). cbn [py_get].
    destruct R2 as [R2|R2]; rewrite R2; destruct (dget hd (lit "kid")); reflexivity. }
  destruct (in_picks (set_alg (set_jwt v u) (VStr a)) keys (VStr []) (VStr []) (VStr a) t (kwarg hd (lit "kid") VNone) k) as (out & O1 & O2 & O3); try assumption.
  { unfold alg_or, set_alg. cbn [truthy s_dict]. rewrite dget_dset. reflexivity. }
  { cbn [pval_eqb]. apply zs_eqb_neq. exact NN'. }
  rewrite O1. cbn [bind]. destruct out as [|k0 out]; [destruct O2|]. rewrite G. change (sign_input u) with (b64e h ++ 46 :: b64e pb). change (signature u) with sg.
  destruct (try_keys_works P g (b64e h ++ 46 :: b64e pb) sg k (k0 :: out) O2) as (k' & K').
  { rewrite M1. cbn [bind]. exact M2. }
  { intros k' I'. destruct (O3 k' I') as [O4 O5]. destruct (Cl k' O4) as [C|[C|C]]; [left; exact C|contradiction|right; apply C]. }
  rewrite K'. cbn [bind]. rewrite Pl. cbn [bind]. eexists. exists k'. split; [reflexivity|]. apply try_keys_inv in K'. destruct K' as [K' _]. apply O3. exact K'.
Qed.

Lemma sign_then_verify_gen : forall P E s keys protected s' tok a g t,
  sign_compact P E s (Some keys) protected = (s', Ok tok) -> chosen s (Some keys) = VStr a -> dget SIGNERS a = Some g -> alg2keytype (VStr a) = Ok (Some t) ->
  keys <> [] -> octets_wf (s_msg s) -> json_header protected s (Some keys) -> text_cty protected ->
  (forall k, In k keys -> right_type t k -> works P g k) ->
  (forall k, In k keys -> truthy (k_kid k) = true -> exists x, k_kid k = VStr x) ->
  (forall k kid, In k keys -> kid_in_force s = Ok kid -> right_kid kid k -> truthy (k_kid k) = false -> truthy (kwarg protected (lit "kid") VNone) = false) ->
  (forall k k', In k keys -> In k' keys -> k' = k \/ ~ right_type t k' \/ clean P g k' \/ (truthy (k_kid k) = true /\ k_kid k' <> k_kid k)) ->
  exists h pb sg k, let hd := sign_header protected (VStr a) (Some k) (dget (s_dict s) (lit "typ")) in
    octets_of (s_msg s) = Ok pb /\ In k keys /\ ascii h = true /\ loads h = Ok (VDict hd) /\ bytes_ok pb = true /\ bytes_ok sg = true /\ tok = mk_token h [pb; sg] /\
    forall v an sigalg token, token = VStr tok \/ token = VBytes tok -> ready_for v a hd -> truthy sigalg = false \/ sigalg = VStr a ->
    exists v' k', verify_compact P v token (Some keys) an sigalg = (v', Ok (payload_view protected pb, Some k')) /\ In k' keys.
Proof.
  intros P E s keys protected s' tok a g t H C G T NE W J CT Wk KT KF Cl. apply sign_inv in H.
  destruct H as (_ & [(N & _)|(he & pb & a' & g' & k & t' & kid & input & i & m & sg & S)]).
  { rewrite C in N. injection N as ->. vm_compute in G. discriminate. }
  pose proof (sn_alg _ _ _ _ _ _ _ _ _ _ _ _ _ _ _ _ _ S) as C'. rewrite C in C'. injection C' as <-. pose proof (sn_signer _ _ _ _ _ _ _ _ _ _ _ _ _ _ _ _ _ S) as G'. rewrite G in G'. injection G' as <-.
  pose proof (sn_family _ _ _ _ _ _ _ _ _ _ _ _ _ _ _ _ _ S) as T'. rewrite T in T'. injection T' as <-.
  pose proof (sn_offered _ _ _ _ _ _ _ _ _ _ _ _ _ _ _ _ _ S) as O. pose proof (sn_suitable _ _ _ _ _ _ _ _ _ _ _ _ _ _ _ _ _ S) as (S1 & S2 & S3 & S4).
  assert (I : In k keys) by (destruct O as [(l & X & O)|[[O|O] _]]; congruence).
  set (hd := sign_header protected (VStr a) (Some k) (dget (s_dict s) (lit "typ"))).
  assert (HJ : jsonable (VDict hd) = true).
  { eapply sign_header_json; [exact J|eapply signers_scalars; exact G|]. intros k' X. injection X as <-. exact O. }
  destruct (signed_text _ _ _ _ _ _ _ _ _ _ _ _ _ _ _ _ _ _ S W (b2s_id _ HJ) HJ) as (h & A & L & B & EI & AI & ->).
  destruct (sign_header_get protected (VStr a) (Some k) (dget (s_dict s) (lit "typ"))) as (H1 & H2 & _ & H4). fold hd in H1, H2, H4.
  assert (Cty : dget hd (lit "cty") = dget protected (lit "cty")) by (apply H4; intro X; vm_compute in X; discriminate).
  destruct (Wk k I S1 E i m sg (ascii_bytes _ AI) (sn_material _ _ _ _ _ _ _ _ _ _ _ _ _ _ _ _ _ S) (sn_sign _ _ _ _ _ _ _ _ _ _ _ _ _ _ _ _ _ S)) as (BS & m' & M1 & M2).
  exists h, pb, sg, k. cbv zeta. fold hd. split; [exact (sn_payload _ _ _ _ _ _ _ _ _ _ _ _ _ _ _ _ _ S)|]. split; [exact I|]. split; [exact A|]. split; [exact L|]. split; [exact B|]. split; [exact BS|]. split; [reflexivity|].
  intros v an sigalg token TK R SA.
  assert (KD : forall k', truthy (k_kid k) = true -> right_kid (kwarg hd (lit "kid") VNone) k' -> k_kid k' = k_kid k).
  { intros k' TR RK. unfold right_kid, kwarg in RK. rewrite H2, TR in RK. destruct (KT k I TR) as (x & X). specialize (RK TR). rewrite X in *. apply pval_eqb_strs in RK. congruence. }
  destruct (verify_token P g a t h hd pb sg keys k v an sigalg token G T A L B BS TK H1) as (v' & k' & V & I'); try assumption.
  { unfold text_cty. rewrite Cty. exact CT. }
  { split; [exact S1|]. split; [|split; [intro X; discriminate|exact S4]]. unfold right_kid, kwarg. rewrite H2. destruct (truthy (k_kid k)) eqn:TR; [destruct (KT k I TR) as (x & ->); intros _; cbn; apply zs_eqb_refl|].
    intro X. unfold kwarg in KF. rewrite (KF k kid I (sn_kid _ _ _ _ _ _ _ _ _ _ _ _ _ _ _ _ _ S) S2 TR) in X. discriminate. }
  { exists m'. rewrite <- EI. auto. }
  { intros k' I'. destruct (Cl k k' I I') as [X|[X|[X|(X & Y)]]]; [left; exact X|right; left; intros (Q & _); contradiction|right; right; exact X|].
    right; left. intros (_ & Q & _). apply Y. apply KD; assumption. }
  exists v', k'. split; [|exact I'].
  replace (payload_view protected pb) with (payload_view hd pb); [exact V|]. unfold payload_view. rewrite Cty. reflexivity.
Qed.

Theorem sign_then_verify : forall P E s keys protected s' tok a g t,
  sign_compact P E s (Some keys) protected = (s', Ok tok) -> chosen s (Some keys) = VStr a -> dget SIGNERS a = Some g -> alg2keytype (VStr a) = Ok (Some t) ->
  keys <> [] -> octets_wf (s_msg s) -> json_header protected s (Some keys) -> text_cty protected ->
  (forall k, In k keys -> right_type t k -> works P g k) ->
  (forall k, In k keys -> truthy (k_kid k) = true -> exists x, k_kid k = VStr x) ->
  (forall k, In k keys -> truthy (k_kid k) = false -> truthy (kwarg protected (lit "kid") VNone) = false) ->
  (forall k k', In k keys -> In k' keys -> k' = k \/ ~ right_type t k' \/ clean P g k' \/ (truthy (k_kid k) = true /\ k_kid k' <> k_kid k)) ->
  forall v an sigalg token, token = VStr tok \/ token = VBytes tok -> ready v a -> truthy sigalg = false \/ sigalg = VStr a ->
  exists pb v' k', octets_of (s_msg s) = Ok pb /\ verify_compact P v token (Some keys) an sigalg = (v', Ok (payload_view protected pb, Some k')) /\ In k' keys.
Proof.
  intros P E s keys protected s' tok a g t H C G T NE W J CT Wk KT KF Cl v an sigalg token TK (R1 & R2) SA.
  destruct (sign_then_verify_gen P E s keys protected s' tok a g t H C G T NE W J CT Wk KT) as (h & pb & sg & k & O & _ & _ & _ & _ & _ & _ & V); [intros k kid I _ _; apply KF; exact I|exact Cl|].
  destruct (V v an sigalg token TK) as (v' & k' & V1 & V2); [split; [exact R1|left; exact R2]|exact SA|]. exists pb, v', k'. auto.
Qed.

(** Algorithm none. *)
Theorem none_then_verify : forall P E s keys protected s' tok,
  sign_compact P E s keys protected = (s', Ok tok) -> chosen s keys = VStr (lit "none") -> octets_wf (s_msg s) -> json_header protected s keys -> text_cty protected ->
  forall v keys' sigalg token, token = VStr tok \/ token = VBytes tok ->
  exists pb v', octets_of (s_msg s) = Ok pb /\ verify_compact P v token keys' true sigalg = (v', Ok (payload_view protected pb, None)).
Proof.
  intros P E s keys protected s' tok H C W J CT v keys' sigalg token TK. apply sign_inv in H.
  destruct H as (_ & [(N & he & pb & U)|(he & pb & a & g & k & t & kid & input & i & m & sg & S)]).
  2: { pose proof (sn_alg _ _ _ _ _ _ _ _ _ _ _ _ _ _ _ _ _ S) as X. rewrite C in X. injection X as <-. pose proof (sn_signer _ _ _ _ _ _ _ _ _ _ _ _ _ _ _ _ _ S) as G. vm_compute in G. discriminate. }
  set (hd := sign_header protected (VStr (lit "none")) None (dget (s_dict s) (lit "typ"))).
  assert (HJ : jsonable (VDict hd) = true) by (eapply sign_header_json; [exact J|reflexivity|discriminate]).
  destruct (unsigned_text _ _ _ _ _ _ U W (b2s_id _ HJ) HJ) as (h & A & L & B & ->). exists pb.
  destruct (sign_header_get protected (VStr (lit "none")) None (dget (s_dict s) (lit "typ"))) as (H1 & H2 & _ & H4). fold hd in H1, H2, H4.
  assert (Cty : dget hd (lit "cty") = dget protected (lit "cty")) by (apply H4; intro X; vm_compute in X; discriminate).
  destruct (unpack_mk_token h (VDict hd) [pb; []] A L) as [U1 U2]; [cbn [forallb]; rewrite B; reflexivity|discriminate|].
  set (u := {| j_headers := VDict hd; j_b64 := map b64e (h :: [pb; []]); j_part := map VBytes (h :: [pb; []]) |}) in *.
  assert (UP : unpack token = Ok u) by (destruct TK as [->| ->]; assumption).
  assert (Pl : payload u = Ok (payload_view hd pb)) by (apply payload_viewed; [reflexivity|reflexivity|unfold text_cty; rewrite Cty; exact CT]).
  unfold verify_compact. rewrite UP. cbn [bind]. change (Nat.eqb (length (j_part u)) 3) with true. cbn match. change (j_headers u) with (VDict hd). cbn [py_get]. rewrite H1.
  change (none_alg (VStr (lit "none"))) with (@Ok bool true). cbn match. rewrite Pl. eexists. split; [exact (un_payload _ _ _ _ _ U)|].
  replace (payload_view protected pb) with (payload_view hd pb); [reflexivity|]. unfold payload_view. rewrite Cty. reflexivity.
Qed.

(** ** C25 *)

(** With keys supplied, none of which fits, signing raises NoSuitableSigningKeys. *)
Theorem sign_refuses : forall P E s keys protected a t kid, keys <> [] -> chosen s (Some keys) = VStr a -> lower a <> lit "none" -> alg2keytype (VStr a) = Ok (Some t) ->
  kid_in_force s = Ok kid -> (forall k, In k keys -> ~ suitable t kid (VStr (lit "sig")) (VStr a) k) ->
  snd (sign_compact P E s (Some keys) protected) = Raise ENoSuitableSigningKeys.
Proof.
  intros P E s keys protected a t kid NE C N T K F. unfold sign_compact, alg_keys. destruct (pick_alg s (Some keys)) as [s0 al] eqn:PA.
  destruct (pick_alg_chosen s (Some keys)) as (C1 & C2 & C3 & C4 & C5 & C6 & C7). rewrite PA in C1. cbn [snd] in C1. rewrite C in C1. subst al.
  assert (E0 : s0 = after_choice s (Some keys)) by (unfold after_choice; rewrite PA; reflexivity).
  assert (JK : jws_keys P s0 (Some keys) = Ok (map Some keys)) by (destruct keys; [congruence|reflexivity]). rewrite JK. cbn [bind].
  destruct (pick_keys_spec s0 keys (VStr (lit "sig")) (VStr a) (VStr a) t kid) as (out & O & Pk); try assumption.
  { unfold alg_or. rewrite C in C2. rewrite C2. reflexivity. }
  { cbn [pval_eqb]. apply zs_eqb_neq. intros ->. apply N. reflexivity. }
  { rewrite E0, signing_kid. exact K. }
  rewrite O. cbn [bind]. destruct out as [|k out].
  - cbn [py_lower bind pval_eqb]. rewrite (proj2 (zs_eqb_neq _ _) N). reflexivity.
  - exfalso. destruct (proj1 (picks_In _ _ _ _ Pk k) (or_introl eq_refl)) as [I S]. exact (F k I S).
Qed.

(** Whatever the keys: with another algorithm than "none" a token is only produced by signing with a fitting key. *)
Theorem never_unsigned : forall P E s keys protected s' tok, sign_compact P E s keys protected = (s', Ok tok) -> chosen s keys <> VStr (lit "none") ->
  exists a g k t kid i m sg, chosen s keys = VStr a /\ dget SIGNERS a = Some g /\ alg2keytype (VStr a) = Ok (Some t) /\ kid_in_force s = Ok kid /\ offered s keys k /\
    suitable t kid (VStr (lit "sig")) (VStr a) k /\ get_key k true = Ok m /\ signer_sign P g E i m = Ok sg /\ utf8_decode i = Ok (firstn (length tok - S (length (b64e sg))) tok) /\
    tok = firstn (length tok - S (length (b64e sg))) tok ++ 46 :: b64e sg.
Proof.
  intros P E s keys protected s' tok H N. apply sign_inv in H. destruct H as (_ & [(N' & _)|(he & pb & a & g & k & t & kid & input & i & m & sg & S)]); [contradiction|].
  exists a, g, k, t, kid, i, m, sg. destruct S as [S1 S2 S3 S4 S5 S6 S7 S8 S9 S10 S11 S12 ->]. repeat (split; [assumption|]).
  assert (X : firstn (length (input ++ 46 :: b64e sg) - S (length (b64e sg))) (input ++ 46 :: b64e sg) = input).
  { rewrite app_length. cbn [length]. replace (length input + S (length (b64e sg)) - S (length (b64e sg)))%nat with (length input) by lia.
    rewrite firstn_app, firstn_all, Nat.sub_diag, firstn_O, app_nil_r. reflexivity. }
  rewrite X. split; [|reflexivity]. eapply utf8_decode_encode. exact S10.
Qed.
