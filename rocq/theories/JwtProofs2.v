(** * Proofs about the token container: parts of any kind, the constructor *)
From Coq Require Import ZArith List Bool Lia ZifyBool.
From Verif Require Import Base BaseProofs Codec CodecProofs Utf8 Json JsonProofs Jwt JwtProofs.
Import ListNotations.
Open Scope Z_scope.

(** What a part must be to be packed: bytes, encodable text, or a value whose text form is JSON. *)
Definition packable (x : pval) : Prop :=
  match x with
  | VBytes b => bytes_ok b = true
  | VStr s => scalars s = true
  | VNone | VList _ | VDict _ => exists v, b2s_conv x = Ok v /\ jsonable v = true
  | _ => False
  end.
(** What is found again in the segment of a part. *)
Definition comes_back (x : pval) (p : bytes) : Prop :=
  match x with
  | VBytes b => p = b
  | VStr s => utf8_decode p = Ok s
  | VNone | VList _ | VDict _ => exists t v, utf8_decode p = Ok t /\ loads t = Ok v /\ b2s_conv x = Ok v
  | _ => False
  end.

Lemma json_segment : forall x v, b2s_conv x = Ok v -> jsonable v = true -> exists t, dumps false v = Ok t /\ ascii t = true /\ loads t = Ok v /\
  (t' <- dumps false v;; b <- utf8_encode t';; Ok (b64e b)) = Ok (b64e t).
Proof.
  intros x v C J. destruct (loads_dumps false v J) as (t & T1 & T2 & T3). exists t. pose proof (allp_ascii t T2) as A. split; [exact T1|]. split; [exact A|]. split; [exact T3|].
  rewrite T1. cbn [bind]. rewrite utf8_encode_ascii by exact A. reflexivity.
Qed.

Lemma encode_part : forall x, packable x -> exists p, b64encode_item x = Ok (b64e p) /\ bytes_ok p = true /\ comes_back x p.
Proof.
  intros x P.
  assert (G : forall v, b2s_conv x = Ok v -> jsonable v = true ->
    exists p, (v <- b2s_conv x;; t <- dumps false v;; b <- utf8_encode t;; Ok (b64e b)) = Ok (b64e p) /\ bytes_ok p = true /\
      exists t v, utf8_decode p = Ok t /\ loads t = Ok v /\ b2s_conv x = Ok v).
  { intros v C J. destruct (json_segment x v C J) as (t & T1 & T2 & T3 & T4). exists t. rewrite C. cbn [bind]. split; [exact T4|].
    split; [apply ascii_bytes; exact T2|]. exists t, v. split; [apply utf8_decode_ascii; exact T2|]. split; [exact T3|reflexivity]. }
  destruct x as [| | | |s|b|l|d]; cbn [packable] in P; try contradiction.
  - destruct P as (v & C & J). exact (G v C J).
  - assert (E : utf8_encode s = Ok (concat (map utf8_enc_c s))) by (unfold utf8_encode; rewrite P; reflexivity).
    exists (concat (map utf8_enc_c s)). cbn [b64encode_item comes_back]. rewrite E. split; [reflexivity|]. split; [eapply utf8_encode_ok; exact E|eapply utf8_decode_encode; exact E].
  - exists b. split; [reflexivity|]. split; [exact P|reflexivity].
  - destruct P as (v & C & J). exact (G v C J).
  - destruct P as (v & C & J). exact (G v C J).
Qed.

Lemma encode_parts : forall parts, Forall packable parts -> exists ps, mapM b64encode_item parts = Ok (map b64e ps) /\ forallb bytes_ok ps = true /\ Forall2 comes_back parts ps.
Proof.
  induction 1 as [|x parts X H IH]; [exists []; repeat split; constructor|].
  destruct (encode_part x X) as (p & P1 & P2 & P3). destruct IH as (ps & I1 & I2 & I3). exists (p :: ps). cbn [mapM map forallb]. rewrite P1. cbn [bind]. rewrite I1. cbn [bind].
  split; [reflexivity|]. split; [rewrite P2; exact I2|]. constructor; assumption.
Qed.

Lemma pack_unpack_any : forall j d d' parts hdr, b2s_conv (VDict d) = Ok (VDict d') -> jsonable (VDict d') = true -> d <> [] ->
  hdr = VDict d \/ (truthy hdr = false /\ j_headers j = VDict d) -> Forall packable parts -> parts <> [] ->
  exists tok j' u t ps, pack j parts hdr = Ok (tok, j') /\ j_part j' = VDict d :: parts /\ unpack (VStr tok) = Ok u /\ unpack (VBytes tok) = Ok u /\
    j_headers u = VDict d' /\ j_part u = map VBytes (t :: ps) /\ Forall2 comes_back parts ps.
Proof.
  intros j d d' parts hdr C J ND H P NE. destruct (encode_parts parts P) as (ps & E1 & E2 & E3).
  assert (NP : ps <> []) by (intros ->; inversion E3; congruence).
  destruct (pack_bytes j d d' ps hdr C J ND H E2 NP) as (t & T1 & T2 & T3 & T4). destruct (unpack_mk_token t (VDict d') ps T2 T3 E2 NP) as [U1 U2].
  exists (mk_token t ps), {| j_headers := j_headers j; j_b64 := map b64e (t :: ps); j_part := VDict d :: parts |}.
  eexists. exists t, ps. split; [|split; [reflexivity|]; split; [exact U1|]; split; [exact U2|]; split; [reflexivity|]; split; [reflexivity|exact E3]].
  unfold pack in T4 |- *. assert (HH : (if truthy hdr then hdr else if truthy (j_headers j) then j_headers j else VDict [(lit "alg", VStr (lit "none"))]) = VDict d).
  { destruct H as [-> | [-> ->]]; destruct d; try congruence; reflexivity. }
  rewrite HH in *. destruct parts as [|x parts]; [congruence|]. destruct ps as [|p ps]; [congruence|]. cbn [map] in T4. rewrite E1.
  destruct (b64encode_item (VDict d)) as [e|]; [|discriminate]. cbn [bind] in T4 |- *.
  change (VBytes p :: map VBytes ps) with (map VBytes (p :: ps)) in T4. rewrite mapM_enc_bytes in T4. cbn [bind] in T4.
  destruct (mapM utf8_decode (e :: map b64e (p :: ps))) as [ts|]; [|discriminate]. cbn [bind] in *. injection T4 as X1 X2. rewrite X1, X2. reflexivity.
Qed.

(** Numbers cannot be packed. *)
Lemma pack_number : forall j parts hdr r x, In x parts -> (exists n, x = VInt n) \/ (exists b, x = VBool b) \/ (exists f, x = VFloat f) -> pack j parts hdr = Ok r -> False.
Proof.
  intros j parts hdr r x I N H. unfold pack in H. destruct parts as [|y parts]; [destruct I|].
  destruct (b64encode_item _) as [e|]; [|discriminate]. cbn [bind] in H.
  assert (E : exists ex, mapM b64encode_item (y :: parts) = Raise ex).
  { clear H. assert (X : exists ex, b64encode_item x = Raise ex) by (destruct N as [[n ->]|[[b ->]|[f ->]]]; eexists; reflexivity).
    revert I. generalize (y :: parts). induction l as [|z l IH]; intros I; [destruct I|]. cbn [mapM]. destruct I as [->|I].
    - destruct X as [ex ->]. eexists. reflexivity.
    - destruct (b64encode_item z) as [s|ez]; [|eexists; reflexivity]. cbn [bind]. destruct (IH I) as [ex ->]. eexists. reflexivity. }
  destruct E as [ex E]. rewrite E in H. discriminate.
Qed.

(** ** The constructor *)
Definition alg_or_null (d : dict) : pval := match dget d (lit "alg") with Some v => if truthy v then v else VNone | None => VNone end.

Lemma jwt_init_ok : forall d j, jwt_init d = Ok j -> exists h t seg, j_headers j = VDict h /\
  (forall k, dget h k = if zs_eqb (lit "alg") k then Some (alg_or_null d) else dget d k) /\
  j_b64 j = [seg] /\ j_part j = [VBytes t] /\ b64d seg = Ok t /\
  (exists v s, b2s_conv (VDict h) = Ok v /\ dumps false v = Ok s /\ utf8_encode s = Ok t /\ (jsonable v = true -> loads s = Ok v)).
Proof.
  intros d j H. unfold jwt_init in H. set (h := if match dget d (lit "alg") with Some v => truthy v | None => false end then d else dset d (lit "alg") VNone) in H. cbv zeta in H.
  assert (HG : forall k, dget h k = if zs_eqb (lit "alg") k then Some (alg_or_null d) else dget d k).
  { intro k. subst h. unfold alg_or_null. destruct (dget d (lit "alg")) as [v|] eqn:E; [destruct (truthy v)|].
    - destruct (zs_eqb (lit "alg") k) eqn:K; [apply zs_eqb_eq in K; subst k; exact E|reflexivity].
    - rewrite dget_dset. destruct (zs_eqb (lit "alg") k); reflexivity.
    - rewrite dget_dset. destruct (zs_eqb (lit "alg") k); reflexivity. }
  destruct (b64encode_item (VDict h)) as [seg|] eqn:E; [|discriminate]. cbn [bind] in H. destruct (b64d seg) as [t|] eqn:D; [|discriminate]. cbn [bind] in H. injection H as <-.
  cbn [j_headers j_b64 j_part]. exists h, t, seg. split; [reflexivity|]. split; [exact HG|]. split; [reflexivity|]. split; [reflexivity|]. split; [exact D|].
  unfold b64encode_item in E. destruct (b2s_conv (VDict h)) as [v|]; [|discriminate]. cbn [bind] in E. destruct (dumps false v) as [s|] eqn:S; [|discriminate]. cbn [bind] in E.
  destruct (utf8_encode s) as [b|] eqn:U; [|discriminate]. cbn [bind] in E. injection E as <-. rewrite b64d_b64e in D by (eapply utf8_encode_ok; exact U). injection D as <-.
  exists v, s. split; [reflexivity|]. split; [exact S|]. split; [exact U|]. intro J. destruct (loads_dumps false v J) as (s' & S1 & _ & S3). rewrite S in S1. injection S1 as <-. exact S3.
Qed.

Lemma b2s_dset : forall d d' k, b2s_dict d = Ok d' -> b2s_dict (dset d k VNone) = Ok (dset d' k VNone).
Proof.
  induction d as [|[k0 x] d IH]; intros d' k H; cbn [b2s_dict] in H; [injection H as <-; reflexivity|].
  destruct (b2s_conv x) as [y|] eqn:X; [|discriminate]. cbn [bind] in H. destruct (b2s_dict d) as [ys|] eqn:D; [|discriminate]. cbn [bind] in H. injection H as <-.
  cbn [dset]. destruct (zs_eqb k0 k) eqn:K; cbn [b2s_dict].
  - cbn [b2s_conv bind]. rewrite D. reflexivity.
  - rewrite X. cbn [bind]. rewrite (IH ys k eq_refl). reflexivity.
Qed.

Lemma dset_In : forall (d : dict) k v kv, In kv (dset d k v) -> In kv d \/ (snd kv = v /\ (fst kv = k \/ exists v', In (fst kv, v') d)).
Proof.
  induction d as [|[k0 x] d IH]; intros k v kv I; cbn [dset] in I.
  - destruct I as [<-|[]]. right. split; [reflexivity|left; reflexivity].
  - destruct (zs_eqb k0 k) eqn:K; destruct I as [<-|I].
    + right. split; [reflexivity|]. left. apply zs_eqb_eq. exact K.
    + left. right. exact I.
    + left. left. reflexivity.
    + destruct (IH k v kv I) as [I'|[E [F|[v' F]]]]; [left; right; exact I'|right; split; [exact E|left; exact F]|right; split; [exact E|right; exists v'; right; exact F]].
Qed.
Lemma jsonable_dset_null : forall (d : dict) k, jsonable (VDict d) = true -> scalars k = true -> jsonable (VDict (dset d k VNone)) = true.
Proof.
  intros d k J K. cbn [jsonable] in *. apply andb_true_iff in J. destruct J as [N F]. rewrite dset_nodup by exact N. cbn [andb].
  rewrite forallb_forall in *. intros kv I. destruct (dset_In d k VNone kv I) as [I'|[-> [->|[v' I']]]]; [apply F; exact I'|rewrite K; reflexivity|].
  specialize (F _ I'). cbn [fst] in F. apply andb_true_iff in F. rewrite (proj1 F). reflexivity.
Qed.

Lemma jwt_init_total : forall d d', b2s_conv (VDict d) = Ok (VDict d') -> jsonable (VDict d') = true -> exists j, jwt_init d = Ok j.
Proof.
  intros d d' C J. set (h := if match dget d (lit "alg") with Some v => truthy v | None => false end then d else dset d (lit "alg") VNone).
  assert (E : jwt_init d = (e <- b64encode_item (VDict h);; p <- b64d e;; Ok {| j_headers := VDict h; j_b64 := [e]; j_part := [VBytes p] |})) by reflexivity.
  assert (X : exists h', b2s_conv (VDict h) = Ok (VDict h') /\ jsonable (VDict h') = true).
  { subst h. destruct (match dget d (lit "alg") with Some v => truthy v | None => false end); [exists d'; split; assumption|].
    exists (dset d' (lit "alg") VNone). split; [|apply jsonable_dset_null; [exact J|reflexivity]].
    rewrite b2s_VDict in *. destruct (b2s_dict d) as [y|] eqn:D; [|discriminate]. cbn [bind] in C. injection C as ->. rewrite (b2s_dset _ _ _ D). reflexivity. }
  destruct X as (h' & H1 & H2). destruct (encode_header h h' H1 H2) as (t & _ & T2 & _ & T4). rewrite E, T4. cbn [bind].
  rewrite b64d_b64e by (apply ascii_bytes, allp_ascii; exact T2). eexists. reflexivity.
Qed.

(** A fresh token object packs to its header segment. *)
Lemma jwt_init_pack : forall d j h, jwt_init d = Ok j -> exists seg, j_b64 j = [seg] /\ pack j [] h = Ok (seg, j).
Proof.
  intros d j h H. destruct (jwt_init_ok d j H) as (hh & t & seg & _ & _ & S & _ & D & _). exists seg. split; [exact S|].
  unfold pack. rewrite S. cbn [mapM]. rewrite utf8_decode_ascii by (eapply b64d_input_ascii; exact D). reflexivity.
Qed.
