(** * The texts of an encrypted token (jwt.py:54-71, jwe.py:841-900) *)
From Coq Require Import ZArith List Bool Lia ZifyBool.
From Verif Require Import Base BaseProofs Utf8 Codec CodecProofs B64Num B64Exact Json Jwt JwtProofs Prims Jwk Jws Jwe TokTexts.
Import ListNotations.
Open Scope Z_scope.

Lemma decodable_all : forall segs ps, mapM b64d segs = Ok ps -> forall q, In q segs -> exists b, b64d q = Ok b.
Proof.
  induction segs as [|x segs IH]; intros ps M q I; [destruct I|]. cbn [mapM] in M. destruct (b64d x) as [b|] eqn:E; [|discriminate M]. cbn [bind] in M. destruct (mapM b64d segs) as [bs|]; [|discriminate M].
  destruct I as [<-|I]; [exists b; exact E|]. exact (IH bs eq_refl q I).
Qed.
Lemma ascii_join : forall l, (forall q, In q l -> ascii q = true) -> ascii (join 46 l) = true.
Proof.
  induction l as [|x l IH]; intro H; [reflexivity|]. destruct l as [|y l]; [apply H; left; reflexivity|]. change (join 46 (x :: y :: l)) with (x ++ 46 :: join 46 (y :: l)). unfold ascii in *. rewrite forallb_app. cbn [forallb]. rewrite (H x (or_introl eq_refl)).
  rewrite IH; [reflexivity|]. intros q I. apply H. right. exact I.
Qed.
Lemma unpack_join : forall token h segs bh ps, as_token token (join 46 (h :: segs)) -> segs <> [] -> b64d h = Ok bh -> mapM b64d segs = Ok ps ->
  unpack token = (t <- utf8_decode bh;; v <- loads t;; Ok {| j_headers := v; j_b64 := h :: segs; j_part := map VBytes (bh :: ps) |}).
Proof.
  intros token h segs bh ps T NE Hh Hs.
  assert (DA : forall q, In q (h :: segs) -> exists b, b64d q = Ok b) by (intros q [<-|I]; [exists bh; exact Hh|exact (decodable_all segs ps Hs q I)]).
  assert (A : utf8_encode (join 46 (h :: segs)) = Ok (join 46 (h :: segs))) by (apply utf8_encode_ascii, ascii_join; intros q I; destruct (DA q I) as [b B]; exact (url_or_ascii _ _ B)).
  assert (S3 : split_token (join 46 (h :: segs)) = Ok (h :: segs)).
  { apply split_token_join; [destruct segs; [congruence|cbn; lia]|]. intros q I. destruct (DA q I) as [b B]. exact (decodable_no_dot _ _ B). }
  unfold unpack. destruct T as [-> | ->]; [rewrite A|]; cbn [bind]; rewrite S3; cbn [bind mapM]; rewrite Hh, Hs; reflexivity.
Qed.
Lemma join_truthy : forall token h segs, as_token token (join 46 (h :: segs)) -> segs <> [] -> truthy token = true.
Proof. intros token h segs T NE. destruct segs as [|x segs]; [congruence|]. change (join 46 (h :: x :: segs)) with (h ++ 46 :: join 46 (x :: segs)) in T. destruct T as [-> | ->]; destruct h; reflexivity. Qed.

(** Only the text of the header and the octets of the other segments matter. *)
Theorem same_segments : forall P sent w keys alg cek h segs segs' bh ps token token', as_token token (join 46 (h :: segs)) -> as_token token' (join 46 (h :: segs')) ->
  segs <> [] -> b64d h = Ok bh -> mapM b64d segs = Ok ps -> mapM b64d segs' = Ok ps ->
  jwe_decrypt P sent w token keys alg cek = jwe_decrypt P sent w token' keys alg cek.
Proof.
  intros P sent w keys alg cek h segs segs' bh ps token token' T T' NE Hh Hs Hs'.
  assert (NE' : segs' <> []).
  { intros ->. cbn [mapM] in Hs'. injection Hs' as <-. destruct segs as [|x segs]; [congruence|]. cbn [mapM] in Hs. destruct (b64d x); [|discriminate Hs]. cbn [bind] in Hs. destruct (mapM b64d segs); discriminate Hs. }
  unfold jwe_decrypt. rewrite (join_truthy _ _ _ T NE), (join_truthy _ _ _ T' NE'), (unpack_join _ _ _ _ _ T NE Hh Hs), (unpack_join _ _ _ _ _ T' NE' Hh Hs').
  destruct (utf8_decode bh) as [t|]; [|reflexivity]. cbn [bind]. destruct (loads t) as [v|]; [|reflexivity]. cbn [bind]. reflexivity.
Qed.

Lemma mapM_app : forall (l m : list bytes) bl bm, mapM b64d l = Ok bl -> mapM b64d m = Ok bm -> mapM b64d (l ++ m) = Ok (bl ++ bm).
Proof.
  induction l as [|x l IH]; intros m bl bm L M; cbn [mapM app] in *; [injection L as <-; exact M|]. destruct (b64d x) as [b|]; [|discriminate L]. cbn [bind] in *.
  destruct (mapM b64d l) as [bs|]; [|discriminate L]. cbn [bind] in *. injection L as <-. rewrite (IH m bs bm eq_refl M). reflexivity.
Qed.

(** The texts without padding of one segment, the others fixed: all of them give the same result. *)
Theorem segment_texts : forall P sent w keys alg cek h before x after bh bb b ba, b64d h = Ok bh -> mapM b64d before = Ok bb -> b64d x = Ok b -> mapM b64d after = Ok ba ->
  exists l, NoDup l /\ Z.of_nat (length l) = (if Z.of_nat (length b) mod 3 =? 0 then 1 else if Z.of_nat (length b) mod 3 =? 1 then 16 else 4) /\
    (forall y, ~ In 61 y /\ b64d y = Ok b <-> In y l) /\
    forall y, In y l -> jwe_decrypt P sent w (VStr (join 46 (h :: before ++ y :: after))) keys alg cek = jwe_decrypt P sent w (VStr (join 46 (h :: before ++ x :: after))) keys alg cek.
Proof.
  intros P sent w keys alg cek h before x after bh bb b ba Hh Hb Hx Ha. destruct (texts b (b64d_bytes _ _ Hx)) as (l & ND & L & TX). exists l. split; [exact ND|]. split; [exact L|]. split; [exact TX|].
  intros y I. apply TX in I. destruct I as [_ I]. assert (G : forall z, b64d z = Ok b -> mapM b64d (before ++ z :: after) = Ok (bb ++ b :: ba)).
  { intros z Z1. apply (mapM_app before (z :: after) bb (b :: ba) Hb). cbn [mapM]. rewrite Z1. cbn [bind]. rewrite Ha. reflexivity. }
  apply (same_segments P sent w keys alg cek h (before ++ y :: after) (before ++ x :: after) bh (bb ++ b :: ba)); [left; reflexivity|left; reflexivity|destruct before; discriminate|exact Hh|apply G; exact I|apply G; exact Hx].
Qed.
