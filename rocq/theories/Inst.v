(** * A concrete instance of the primitives: AES (FIPS 197), SHA-1/2 (FIPS 180), HMAC, RSA (RFC 8017).
    Compression is replaced by a tagged copy (only invertibility of zlib matters to the properties). *)
From Coq Require Import ZArith List Bool Lia.
From Verif Require Import Base BaseProofs Prims Aes AesProofs Sha Rsa RsaProofs.
Import ListNotations.
Open Scope Z_scope.

(** RSA.construct without its primality tests and without recovering factors from d. *)
Definition rsa_construct (l : list Z) : res rsakey :=
  match l with
  | n :: e :: r =>
      if (1 <? e) && (e <? n) && Z.odd n && (Z.gcd n e =? 1) then
        match r with
        | [] => Ok {| r_n := n; r_e := e; r_d := None; r_pq := None |}
        | [d; p; q] => if (p * q =? n) && (1 <? d) && (d <? n) && ((e * d) mod Z.lcm (p - 1) (q - 1) =? 1)
                       then Ok {| r_n := n; r_e := e; r_d := Some d; r_pq := Some (p, q) |} else Raise EValueError
        | _ => Raise EValueError
        end
      else Raise EValueError
  | _ => Raise EValueError
  end.

Definition std : prims := {|
  p_aes_enc := aes_enc;
  p_aes_dec := aes_dec;
  p_hash := hash;
  p_hmac := hmac;
  p_rsa_sign := rsa_sign;
  p_rsa_verify := rsa_verify;
  p_rsa_encrypt := rsa_encrypt;
  p_rsa_decrypt := rsa_decrypt;
  p_compress := fun m => 120 :: m;
  p_decompress := fun c => match c with x :: m => if x =? 120 then Ok m else Raise EZlibError | [] => Raise EZlibError end;
  p_rsa_construct := rsa_construct;
  (* a stand-in for certificates: the first octet is e, the others are n *)
  p_der2rsa := fun der => match der with e :: ((_ :: _) as n) => Ok {| r_n := be2z n; r_e := e; r_d := None; r_pq := None |} | _ => Raise EValueError end;
  p_fetch := fun _ => Raise EException
|}.

Theorem std_aes_law : aes_law std.
Proof. intros k b K1 K2 B. apply aes_inverse; assumption. Qed.
Theorem std_hash_law : hash_law std.
Proof. intros h m _. apply hash_len. Qed.
Theorem std_hmac_law : hmac_law std.
Proof. intros h k m _ _. apply hmac_len. Qed.
Theorem std_zip_law : zip_law std.
Proof. intros m M. cbn. split; [exact M|reflexivity]. Qed.
Theorem std_rsa_sign_law : forall k, rsa_wf k -> rsa_sign_law std k.
Proof. intros k W s h rnd m sg _ H. destruct (rsa_sign_verify _ _ _ _ _ _ W H) as [A B]. split; [exact A|]. split; exact B. Qed.
Theorem std_rsa_enc_law : forall k, rsa_wf k -> rsa_enc_law std k.
Proof. intros k W s rnd m ct M H. apply (rsa_encrypt_decrypt k s rnd m ct W M). destruct H; assumption. Qed.

Theorem std_construct_law : construct_law std.
Proof.
  intros l k H. cbn in H. unfold rsa_construct in H. destruct l as [|n [|e r]]; try discriminate. exists n, e, r. split; [reflexivity|].
  destruct ((1 <? e) && (e <? n) && Z.odd n && (Z.gcd n e =? 1)); [|discriminate]. destruct r as [|d [|p [|q [|]]]]; try discriminate; [injection H as <-; repeat split|].
  destruct ((p * q =? n) && (1 <? d) && (d <? n) && ((e * d) mod Z.lcm (p - 1) (q - 1) =? 1)); [|discriminate]. injection H as <-. repeat split.
Qed.
