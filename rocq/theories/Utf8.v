(** * UTF-8 as used by [str.encode()] / [bytes.decode()] (strict error handler). *)
From Coq Require Import ZArith List Bool Lia ZifyBool.
From Verif Require Import Base BaseProofs.
Import ListNotations.
Open Scope Z_scope.
Ltac Zify.zify_post_hook ::= Z.div_mod_to_equations.

(** A Python code point that UTF-8 can encode (surrogates raise UnicodeEncodeError). *)
Definition is_scalar (c : Z) : bool := (0 <=? c) && (c <? 1114112) && negb ((55296 <=? c) && (c <=? 57343)).
Definition scalars (s : ustr) : bool := forallb is_scalar s.

Definition utf8_enc_c (c : Z) : bytes :=
  if c <? 128 then [c]
  else if c <? 2048 then [192 + c / 64; 128 + c mod 64]
  else if c <? 65536 then [224 + c / 4096; 128 + (c / 64) mod 64; 128 + c mod 64]
  else [240 + c / 262144; 128 + (c / 4096) mod 64; 128 + (c / 64) mod 64; 128 + c mod 64].

(** [s.encode("utf-8")]. *)
Definition utf8_encode (s : ustr) : res bytes :=
  if scalars s then Ok (concat (map utf8_enc_c s)) else Raise EUnicodeEncodeError.

Definition cont (b : Z) : bool := (128 <=? b) && (b <? 192).

(** [b.decode("utf-8")]. *)
Fixpoint utf8_decode (b : bytes) : res ustr :=
  match b with
  | [] => Ok []
  | b0 :: r0 =>
    if b0 <? 128 then s <- utf8_decode r0;; Ok (b0 :: s)
    else match r0 with
    | [] => Raise EUnicodeDecodeError
    | b1 :: r1 =>
      if negb (cont b1) then Raise EUnicodeDecodeError
      else if (194 <=? b0) && (b0 <? 224) then
        s <- utf8_decode r1;; Ok (((b0 - 192) * 64 + (b1 - 128)) :: s)
      else match r1 with
      | [] => Raise EUnicodeDecodeError
      | b2 :: r2 =>
        if negb (cont b2) then Raise EUnicodeDecodeError
        else if (224 <=? b0) && (b0 <? 240) then
          let c := (b0 - 224) * 4096 + (b1 - 128) * 64 + (b2 - 128) in
          if (c <? 2048) || ((55296 <=? c) && (c <=? 57343)) then Raise EUnicodeDecodeError
          else s <- utf8_decode r2;; Ok (c :: s)
        else match r2 with
        | [] => Raise EUnicodeDecodeError
        | b3 :: r3 =>
          if negb (cont b3) then Raise EUnicodeDecodeError
          else if (240 <=? b0) && (b0 <? 245) then
            let c := (b0 - 240) * 262144 + (b1 - 128) * 4096 + (b2 - 128) * 64 + (b3 - 128) in
            if (c <? 65536) || (1114112 <=? c) then Raise EUnicodeDecodeError
            else s <- utf8_decode r3;; Ok (c :: s)
          else Raise EUnicodeDecodeError
        end
      end
    end
  end.

Lemma utf8_decode_enc_c : forall c r, is_scalar c = true ->
  utf8_decode (utf8_enc_c c ++ r) = (s <- utf8_decode r;; Ok (c :: s)).
Proof.
  intros c r H. unfold is_scalar in H. unfold utf8_enc_c.
  destruct (c <? 128) eqn:E1; [|destruct (c <? 2048) eqn:E2; [|destruct (c <? 65536) eqn:E3]].
  - cbn [app utf8_decode]. rewrite E1. reflexivity.
  - cbn [app utf8_decode].
    replace (192 + c / 64 <? 128) with false by lia.
    replace (cont (128 + c mod 64)) with true by (unfold cont; lia). cbn [negb].
    replace ((194 <=? 192 + c / 64) && (192 + c / 64 <? 224)) with true by lia.
    replace ((192 + c / 64 - 192) * 64 + (128 + c mod 64 - 128)) with c by lia. reflexivity.
  - cbn [app utf8_decode].
    replace (224 + c / 4096 <? 128) with false by lia.
    replace (cont (128 + (c / 64) mod 64)) with true by (unfold cont; lia).
    replace (cont (128 + c mod 64)) with true by (unfold cont; lia). cbn [negb].
    replace ((194 <=? 224 + c / 4096) && (224 + c / 4096 <? 224)) with false by lia.
    replace ((224 <=? 224 + c / 4096) && (224 + c / 4096 <? 240)) with true by lia.
    replace ((224 + c / 4096 - 224) * 4096 + (128 + (c / 64) mod 64 - 128) * 64 + (128 + c mod 64 - 128)) with c by lia.
    cbv zeta. replace ((c <? 2048) || (55296 <=? c) && (c <=? 57343)) with false by lia. reflexivity.
  - cbn [app utf8_decode].
    replace (240 + c / 262144 <? 128) with false by lia.
    replace (cont (128 + (c / 4096) mod 64)) with true by (unfold cont; lia).
    replace (cont (128 + (c / 64) mod 64)) with true by (unfold cont; lia).
    replace (cont (128 + c mod 64)) with true by (unfold cont; lia). cbn [negb].
    replace ((194 <=? 240 + c / 262144) && (240 + c / 262144 <? 224)) with false by lia.
    replace ((224 <=? 240 + c / 262144) && (240 + c / 262144 <? 240)) with false by lia.
    replace ((240 <=? 240 + c / 262144) && (240 + c / 262144 <? 245)) with true by lia.
    replace ((240 + c / 262144 - 240) * 262144 + (128 + (c / 4096) mod 64 - 128) * 4096 +
             (128 + (c / 64) mod 64 - 128) * 64 + (128 + c mod 64 - 128)) with c by lia.
    cbv zeta. replace ((c <? 65536) || (1114112 <=? c)) with false by lia. reflexivity.
Qed.

Lemma utf8_decode_concat : forall s, scalars s = true -> utf8_decode (concat (map utf8_enc_c s)) = Ok s.
Proof.
  induction s as [|c s IH]; intro H; [reflexivity|]. simpl in H. apply andb_true_iff in H. destruct H as [H1 H2].
  simpl map. simpl concat. rewrite utf8_decode_enc_c by exact H1. rewrite IH by exact H2. reflexivity.
Qed.

Lemma utf8_decode_encode : forall s b, utf8_encode s = Ok b -> utf8_decode b = Ok s.
Proof.
  intros s b. unfold utf8_encode. destruct (scalars s) eqn:E; intro H; inversion H. apply utf8_decode_concat. exact E.
Qed.

Lemma utf8_enc_c_ok : forall c, is_scalar c = true -> bytes_ok (utf8_enc_c c) = true.
Proof.
  intros c H. unfold is_scalar in H. unfold utf8_enc_c, bytes_ok, is_byte.
  destruct (c <? 128) eqn:E1; [|destruct (c <? 2048) eqn:E2; [|destruct (c <? 65536) eqn:E3]]; cbn [forallb]; lia.
Qed.

Lemma utf8_encode_ok : forall s b, utf8_encode s = Ok b -> bytes_ok b = true.
Proof.
  intros s b. unfold utf8_encode. destruct (scalars s) eqn:E; intro H; inversion H. subst. clear H.
  induction s as [|c s IH]; [reflexivity|]. simpl in E. apply andb_true_iff in E. destruct E as [H1 H2].
  simpl map. simpl concat. rewrite bytes_ok_app, utf8_enc_c_ok by exact H1. auto.
Qed.

(** Strict decoding only accepts what encoding produces. *)
Lemma utf8_encode_decode_aux : forall n b s, (length b <= n)%nat -> bytes_ok b = true -> utf8_decode b = Ok s ->
  scalars s = true /\ concat (map utf8_enc_c s) = b.
Proof.
  induction n as [|n IH]; intros b s L B H.
  { destruct b; [|simpl in L; lia]. inversion H. split; reflexivity. }
  destruct b as [|b0 r0]; [inversion H; split; reflexivity|].
  cbn [utf8_decode] in H. cbn [length] in L. rewrite bytes_ok_cons in B. apply andb_true_iff in B. destruct B as [B0 B].
  apply is_byte_spec in B0.
  destruct (b0 <? 128) eqn:E0.
  { destruct (utf8_decode r0) as [s0|] eqn:D; cbn [bind] in H; [|discriminate]. inversion H; subst; clear H.
    apply IH in D; [|lia|exact B]. destruct D as [D1 D2]. cbn [scalars forallb map concat]. split.
    - unfold scalars in D1. rewrite D1, andb_true_r. unfold is_scalar. lia.
    - rewrite D2. unfold utf8_enc_c. rewrite E0. reflexivity. }
  destruct r0 as [|b1 r1]; [discriminate|]. cbn [length] in L. rewrite bytes_ok_cons in B. apply andb_true_iff in B. destruct B as [B1 B].
  destruct (cont b1) eqn:C1; cbn [negb] in H; [|discriminate]. unfold cont in C1.
  destruct ((194 <=? b0) && (b0 <? 224)) eqn:R1.
  { destruct (utf8_decode r1) as [s0|] eqn:D; cbn [bind] in H; [|discriminate]. inversion H; subst; clear H.
    apply IH in D; [|lia|exact B]. destruct D as [D1 D2]. cbn [scalars forallb map concat].
    set (c := (b0 - 192) * 64 + (b1 - 128)). assert (Ec : 128 <= c < 2048) by lia. split.
    - unfold scalars in D1. rewrite D1, andb_true_r. unfold is_scalar. lia.
    - rewrite D2. unfold utf8_enc_c. replace (c <? 128) with false by lia. replace (c <? 2048) with true by lia.
      cbn [app]. f_equal; [unfold c; lia|]. f_equal. unfold c; lia. }
  destruct r1 as [|b2 r2]; [discriminate|]. cbn [length] in L. rewrite bytes_ok_cons in B. apply andb_true_iff in B. destruct B as [B2 B].
  destruct (cont b2) eqn:C2; cbn [negb] in H; [|discriminate]. unfold cont in C2.
  destruct ((224 <=? b0) && (b0 <? 240)) eqn:R2.
  { cbv zeta in H. set (c := (b0 - 224) * 4096 + (b1 - 128) * 64 + (b2 - 128)) in *.
    destruct ((c <? 2048) || (55296 <=? c) && (c <=? 57343)) eqn:Q; [discriminate|].
    destruct (utf8_decode r2) as [s0|] eqn:D; cbn [bind] in H; [|discriminate]. inversion H; subst s; clear H.
    apply IH in D; [|lia|exact B]. destruct D as [D1 D2]. cbn [scalars forallb map concat].
    assert (Ec : 2048 <= c < 65536) by lia. split.
    - unfold scalars in D1. rewrite D1, andb_true_r. unfold is_scalar. lia.
    - rewrite D2. unfold utf8_enc_c. replace (c <? 128) with false by lia. replace (c <? 2048) with false by lia.
      replace (c <? 65536) with true by lia.
      cbn [app]. f_equal; [unfold c; lia|]. f_equal; [unfold c; lia|]. f_equal. unfold c; lia. }
  destruct r2 as [|b3 r3]; [discriminate|]. cbn [length] in L. rewrite bytes_ok_cons in B. apply andb_true_iff in B. destruct B as [B3 B].
  destruct (cont b3) eqn:C3; cbn [negb] in H; [|discriminate]. unfold cont in C3.
  destruct ((240 <=? b0) && (b0 <? 245)) eqn:R3; [|discriminate].
  cbv zeta in H. set (c := (b0 - 240) * 262144 + (b1 - 128) * 4096 + (b2 - 128) * 64 + (b3 - 128)) in *.
  destruct ((c <? 65536) || (1114112 <=? c)) eqn:Q; [discriminate|].
  destruct (utf8_decode r3) as [s0|] eqn:D; cbn [bind] in H; [|discriminate]. inversion H; subst s; clear H.
  apply IH in D; [|lia|exact B]. destruct D as [D1 D2]. cbn [scalars forallb map concat].
  assert (Ec : 65536 <= c < 1114112) by lia. split.
  - unfold scalars in D1. rewrite D1, andb_true_r. unfold is_scalar. lia.
  - rewrite D2. unfold utf8_enc_c. replace (c <? 128) with false by lia. replace (c <? 2048) with false by lia.
    replace (c <? 65536) with false by lia.
    cbn [app]. f_equal; [unfold c; lia|]. f_equal; [unfold c; lia|]. f_equal; [unfold c; lia|]. f_equal. unfold c; lia.
Qed.

Lemma utf8_encode_decode : forall b s, bytes_ok b = true -> utf8_decode b = Ok s -> utf8_encode s = Ok b.
Proof.
  intros b s B H. destruct (utf8_encode_decode_aux (length b) b s (le_n _) B H) as [H1 H2].
  unfold utf8_encode. rewrite H1, H2. reflexivity.
Qed.

Lemma utf8_ascii_c : forall c, 0 <= c < 128 -> utf8_enc_c c = [c].
Proof. intros c H. unfold utf8_enc_c. replace (c <? 128) with true by lia. reflexivity. Qed.

Definition ascii (s : list Z) : bool := forallb (fun c => (0 <=? c) && (c <? 128)) s.

Lemma utf8_encode_ascii : forall s, ascii s = true -> utf8_encode s = Ok s.
Proof.
  intros s H. unfold utf8_encode.
  assert (S : scalars s = true /\ concat (map utf8_enc_c s) = s).
  { induction s as [|c s IH]; [split; reflexivity|]. simpl in H. apply andb_true_iff in H. destruct H as [H1 H2].
    specialize (IH H2). destruct IH as [I1 I2]. cbn [scalars forallb map concat]. unfold scalars in I1. rewrite I1, I2. split.
    - rewrite andb_true_r. unfold is_scalar. lia.
    - rewrite utf8_ascii_c by lia. reflexivity. }
  destruct S as [S1 S2]. rewrite S1, S2. reflexivity.
Qed.

Lemma utf8_decode_ascii : forall s, ascii s = true -> utf8_decode s = Ok s.
Proof. intros s H. apply utf8_decode_encode. apply utf8_encode_ascii. exact H. Qed.

(** [s.encode("ascii")]. *)
Definition ascii_encode (s : ustr) : res bytes := if ascii s then Ok s else Raise EUnicodeEncodeError.
