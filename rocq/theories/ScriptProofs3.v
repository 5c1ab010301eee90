(** * Messages in files: line ends around the message do not matter *)
From Coq Require Import ZArith List Bool Lia.
From Verif Require Import Base BaseProofs Utf8 Codec CodecProofs Json JsonProofs Jwt JwtProofs Prims Elliptic Ecc Extra Jwk Jws JwsProofs JwsProofs7 Jwe Misc Script ScriptProofs.
Import ListNotations.
Open Scope Z_scope.

Definition all_in (chars s : list Z) : Prop := Forall (fun c => In c chars) s.
Definition clean_ends (chars s : list Z) : Prop := match s with [] => True | c :: _ => ~ In c chars /\ ~ In (last s 0) chars end.

Lemma existsb_in : forall c chars, existsb (Z.eqb c) chars = true <-> In c chars.
Proof.
  intros c chars. rewrite existsb_exists. split; [intros (x & I & E); apply Z.eqb_eq in E; subst x; exact I|]. intros I. exists c. split; [exact I|apply Z.eqb_refl].
Qed.
Lemma lstrip_all : forall chars pre s, all_in chars pre -> Script.lstrip chars (pre ++ s) = Script.lstrip chars s.
Proof.
  intros chars pre s H. induction H as [|c pre I H IH]; [reflexivity|]. cbn [app Script.lstrip]. apply existsb_in in I. rewrite I. exact IH.
Qed.
Lemma lstrip_clean : forall chars s, match s with [] => True | c :: _ => ~ In c chars end -> Script.lstrip chars s = s.
Proof.
  intros chars [|c s] H; [reflexivity|]. cbn [Script.lstrip]. destruct (existsb (Z.eqb c) chars) eqn:E; [|reflexivity]. apply existsb_in in E. contradiction.
Qed.
Lemma rev_last : forall (s : list Z) c, rev (s ++ [c]) = c :: rev s.
Proof. intros. rewrite rev_app_distr. reflexivity. Qed.
Theorem strip_around : forall chars pre s post, all_in chars pre -> all_in chars post -> clean_ends chars s -> strip_chars chars (pre ++ s ++ post) = s.
Proof.
  intros chars pre s post A B C. unfold strip_chars. rewrite lstrip_all by exact A.
  assert (B' : all_in chars (rev post)) by (unfold all_in in *; apply Forall_rev; exact B).
  destruct s as [|c s].
  - cbn [app]. replace post with (post ++ []) by apply app_nil_r. rewrite lstrip_all by exact B. reflexivity.
  - destruct C as [C1 C2]. rewrite (lstrip_clean chars ((c :: s) ++ post)) by exact C1. rewrite rev_app_distr, lstrip_all by exact B'.
    rewrite lstrip_clean; [apply rev_involutive|]. destruct (exists_last (l := c :: s)) as (s' & x & E); [discriminate|]. rewrite E in *. rewrite last_last in C2. rewrite rev_last. exact C2.
Qed.

(** A token that unpacks does not begin or end with a line end. *)
Lemma b64d_last : forall s d, b64d s = Ok d -> s <> [] -> b64url_char (last s 0) = true \/ last s 0 = 61.
Proof.
  intros s d H NE. destruct (exists_last NE) as (p & c & ->). rewrite last_last.
  destruct (Z.eq_dec c 61) as [->|N]; [right; reflexivity|left]. assert (R : rstrip 61 (p ++ [c]) = p ++ [c]).
  { unfold rstrip. rewrite rev_last. cbn [Base.lstrip]. destruct (c =? 61) eqn:E; [apply Z.eqb_eq in E; congruence|]. rewrite <- rev_last. apply rev_involutive. }
  pose proof (b64d_unpadded_strict _ _ R H) as F. rewrite forallb_forall in F. apply F. apply in_or_app. right. left. reflexivity.
Qed.
Lemma b64url_not_line_end : forall c, b64url_char c = true \/ c = 61 \/ c = 46 -> ~ In c [10; 13].
Proof. intros c H [<-|[<-|[]]]; destruct H as [H|[H|H]]; discriminate H. Qed.
Lemma join_last : forall parts, parts <> [] -> last (join 46 parts) 46 = last (last parts []) 46.
Proof.
  induction parts as [|p parts IH]; intros NE; [contradiction|]. destruct parts as [|q parts]; [reflexivity|].
  change (join 46 (p :: q :: parts)) with (p ++ 46 :: join 46 (q :: parts)). change (last (p :: q :: parts) []) with (last (q :: parts) []).
  rewrite <- IH by discriminate. generalize (join 46 (q :: parts)). intro l. clear NE. induction p as [|x p IHp]; [destruct l; reflexivity|]. cbn [app]. rewrite <- IHp. destruct p; reflexivity.
Qed.
Lemma last_other : forall (s : list Z) a b, s <> [] -> last s a = last s b.
Proof. induction s as [|c s IH]; intros a b NE; [contradiction|]. destruct s as [|d s]; [reflexivity|]. exact (IH a b ltac:(discriminate)). Qed.
Theorem unpacked_clean : forall tok j, unpack (VStr tok) = Ok j -> tok <> [] /\ clean_ends [10; 13] tok.
Proof.
  intros t u H. destruct (unpack_inv _ _ H) as (b & parts & ps & x & T & A & S & M & U & L & _ & _). assert (b = t) by (destruct T as [T|T]; congruence). subst b. clear T H.
  destruct (split_token_ok _ _ S) as (_ & J & N & _). assert (NE : parts <> []) by (intros ->; cbn [length] in N; lia).
  assert (LAST : ~ In (last t 46) [10; 13]).
  { apply b64url_not_line_end. rewrite <- J, join_last by exact NE. destruct (exists_last NE) as (pp & q & E). rewrite E, last_last.
    destruct q as [|c q]; [right; right; reflexivity|].
    assert (exists d, b64d (c :: q) = Ok d) as (d & D).
    { assert (I : In (c :: q) parts) by (rewrite E; apply in_or_app; right; left; reflexivity). clear -M I. revert ps M I. induction parts as [|p parts IH]; intros ps M I; [contradiction|]. cbn [mapM] in M.
      destruct (b64d p) as [d|] eqn:D; [|discriminate]. cbn [bind] in M. destruct (mapM b64d parts) as [ds|]; [|discriminate]. destruct I as [->|I]; [exists d; exact D|]. exact (IH ds eq_refl I). }
    destruct (b64d_last _ _ D ltac:(discriminate)) as [X|X]; rewrite (last_other _ 46 0) by discriminate; tauto. }
  destruct parts as [|p0 [|p1 parts]]; cbn [length] in N; [lia|lia|]. cbn [mapM] in M.
  destruct (b64d p0) as [d0|] eqn:D0; [|discriminate]. cbn [bind] in M. assert (HD : hd [] ps = d0).
  { destruct (b64d p1); [|discriminate M]. cbn [bind] in M. destruct (mapM b64d parts); [|discriminate M]. cbn [bind] in M. injection M as <-. reflexivity. }
  rewrite HD in U. assert (D : d0 <> []) by (intros ->; injection U as <-; vm_compute in L; discriminate).
  destruct p0 as [|c p]; [vm_compute in D0; congruence|]. destruct (b64d_first _ _ _ D0) as [X|C]; [contradiction|].
  assert (TT : t = c :: p ++ 46 :: join 46 (p1 :: parts)) by (rewrite <- J; reflexivity). split; [rewrite TT; discriminate|]. rewrite (last_other t 46 0) in LAST by (rewrite TT; discriminate).
  revert LAST. rewrite TT. intro LAST. unfold clean_ends. split; [|exact LAST]. apply b64url_not_line_end. left. exact C.
Qed.

Section Files.
Variables (P : prims) (E : entropy) (R : draws) (sent : nat -> bytes).
Variable read : ustr -> res ustr.
Variable imp : ustr -> res rsakey.
Variable stdin : ustr.

Definition with_file (o : options) (name : ustr) : options :=
  {| o_sign := o_sign o; o_verify := o_verify o; o_encrypt := o_encrypt o; o_decrypt := o_decrypt o; o_file := Some name; o_rsa := o_rsa o; o_hmac := o_hmac o; o_alg := o_alg o;
     o_encalg := o_encalg o; o_encenc := o_encenc o; o_jwk := o_jwk o; o_jwks := o_jwks o; o_kid := o_kid o; o_type := o_type o; o_url := o_url o; o_message := None |}.
Theorem util_file : forall o name msg pre post, o_file o = None -> o_message o = Some msg -> msg <> lit "-" -> name <> [] -> read name = Ok (pre ++ msg ++ post) ->
  all_in [10] pre -> all_in [10] post -> clean_ends [10] msg -> jwkutil P E R sent read imp stdin (with_file o name) = jwkutil P E R sent read imp stdin o.
Proof.
  intros o name msg pre post OF OM ND NN RD A B C. unfold jwkutil. change (util_keys P read imp (with_file o name)) with (util_keys P read imp o).
  assert (M : message read stdin (o_file (with_file o name)) (o_message (with_file o name)) [10] = message read stdin (o_file o) (o_message o) [10]).
  { unfold message. cbn [with_file o_file o_message]. rewrite given_some by exact NN. rewrite RD, OF, OM. cbn [bind given]. rewrite strip_around by assumption.
    destruct (zs_eqb msg (lit "-")) eqn:Z; [apply zs_eqb_eq in Z; congruence|reflexivity]. }
  rewrite M. reflexivity.
Qed.

Definition with_message (o : options) (msg : ustr) : options :=
  {| o_sign := o_sign o; o_verify := o_verify o; o_encrypt := o_encrypt o; o_decrypt := o_decrypt o; o_file := None; o_rsa := o_rsa o; o_hmac := o_hmac o; o_alg := o_alg o;
     o_encalg := o_encalg o; o_encenc := o_encenc o; o_jwk := o_jwk o; o_jwks := o_jwks o; o_kid := o_kid o; o_type := o_type o; o_url := o_url o; o_message := Some msg |}.
Theorem util_stdin : forall o, stdin <> lit "-" -> jwkutil P E R sent read imp stdin (with_message o (lit "-")) = jwkutil P E R sent read imp stdin (with_message o stdin).
Proof.
  intros o ND. unfold jwkutil. change (util_keys P read imp (with_message o (lit "-"))) with (util_keys P read imp (with_message o stdin)).
  assert (M : message read stdin (o_file (with_message o (lit "-"))) (o_message (with_message o (lit "-"))) [10] = message read stdin (o_file (with_message o stdin)) (o_message (with_message o stdin)) [10]).
  { unfold message. cbn [with_message o_file o_message given]. change (zs_eqb (lit "-") (lit "-")) with true. cbn match. destruct (zs_eqb stdin (lit "-")) eqn:Z; [apply zs_eqb_eq in Z; congruence|reflexivity]. }
  rewrite M. reflexivity.
Qed.

(** print adds a line end, which is not stripped from the standard input: what one run of jwkutil printed, the next one
    cannot read from a pipe. *)
Theorem util_pipe : forall o t lines, stdin = t ++ [10] -> o_sign o = false -> o_encrypt o = false -> jwkutil P E R sent read imp stdin (with_message o (lit "-")) <> Printed lines.
Proof.
  intros o t lines ST S N H. unfold jwkutil in H. destruct (util_keys P read imp (with_message o (lit "-"))) as [[|k ks]|]; cbn [run_of] in H; try discriminate.
  assert (M : message read stdin (o_file (with_message o (lit "-"))) (o_message (with_message o (lit "-"))) [10] = Ok (VStr stdin)) by reflexivity. rewrite M in H. clear M.
  cbn [run_of with_message o_sign o_encrypt o_decrypt o_verify] in H. rewrite S, N in H.
  assert (U : forall j, unpack (VStr stdin) <> Ok j).
  { intros j U. destruct (unpacked_clean _ _ U) as [NE C]. destruct stdin as [|c r] eqn:EQ; [contradiction|]. destruct C as [_ C]. rewrite ST, last_last in C. apply C. left. reflexivity. }
  assert (T : truthy (VStr stdin) = true) by (rewrite ST; destruct t; reflexivity).
  destruct (o_decrypt o).
  - unfold decrypt, jwe_decrypt in H. rewrite T in H. destruct (unpack (VStr stdin)) as [j|] eqn:X; [exact (U j eq_refl)|]. discriminate H.
  - cbn [run_of] in H. destruct (o_verify o); [|discriminate H]. unfold verify, verify_compact in H. destruct (unpack (VStr stdin)) as [j|] eqn:X; [exact (U j eq_refl)|]. discriminate H.
Qed.

Theorem jwenc_file : forall o name msg, e_file o = None -> e_message o = Some msg -> msg <> lit "-" -> name <> [] -> read name = Ok msg ->
  jwenc_main P R read imp stdin {| e_url := e_url o; e_jwk := e_jwk o; e_xurl := e_xurl o; e_xfile := e_xfile o; e_rsa := e_rsa o; e_alg := e_alg o; e_enc := e_enc o; e_file := Some name; e_message := None |} =
  jwenc_main P R read imp stdin o.
Proof.
  intros o name msg OF OM ND NN RD. unfold jwenc_main. cbn [e_enc e_alg e_file e_message]. unfold enc_keys. cbn [e_url e_jwk e_xurl e_xfile e_rsa].
  assert (M : message read stdin (Some name) None [] = message read stdin (e_file o) (e_message o) []).
  { unfold message. rewrite given_some by exact NN. rewrite RD, OF, OM. cbn [bind given]. unfold strip_chars.
    assert (L : forall s, Script.lstrip [] s = s) by (intros []; reflexivity). rewrite !L, rev_involutive. destruct (zs_eqb msg (lit "-")) eqn:Z; [apply zs_eqb_eq in Z; congruence|reflexivity]. }
  rewrite M. reflexivity.
Qed.

Theorem jwdecrypt_file : forall o name tok m pre post, d_file o = None -> d_message o = Some tok -> jwdecrypt P sent read imp o = Printed [VBytes m] ->
  name <> [] -> read name = Ok (pre ++ tok ++ post) -> all_in [10; 13] pre -> all_in [10; 13] post ->
  jwdecrypt P sent read imp {| d_url := d_url o; d_jwk := d_jwk o; d_rsa := d_rsa o; d_file := Some name; d_message := None |} = Printed [VBytes m].
Proof.
  intros o name tok m pre post OF OM H NN RD A B. unfold jwdecrypt in *. change (dec_keys P read imp {| d_url := d_url o; d_jwk := d_jwk o; d_rsa := d_rsa o; d_file := Some name; d_message := None |}) with (dec_keys P read imp o).
  destruct (dec_keys P read imp o) as [[ks|]|]; cbn [run_of] in *; try discriminate. cbn [d_file d_message]. rewrite given_some by exact NN. rewrite RD. rewrite OF, OM in H. cbn [given run_of oval bind] in *.
  destruct (decrypt P sent (VStr tok) ks) as [b|] eqn:D; [|discriminate]. cbn [run_of] in H.
  assert (C : clean_ends [10; 13] tok).
  { unfold decrypt, jwe_decrypt in D. destruct (truthy (VStr tok)) eqn:T; [|discriminate D]. destruct (unpack (VStr tok)) as [j|] eqn:U; [|discriminate D]. exact (proj2 (unpacked_clean _ _ U)). }
  rewrite strip_around by assumption. rewrite D. exact H.
Qed.
End Files.
