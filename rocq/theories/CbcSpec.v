(** * AES_CBC_HMAC_SHA2 of RFC 7518, section 5.2.2, block by block *)
From Coq Require Import ZArith List Bool Lia.
From Verif Require Import Base BaseProofs Prims Extra ExtraProofs.
Import ListNotations.
Open Scope Z_scope.

Definition xor_octets (a b : bytes) : bytes := map (fun p => Z.lxor (fst p) (snd p)) (combine a b).
(** [cs] are the CBC blocks of [ps] with initial vector [iv]. *)
Definition cbc_of (E : bytes -> bytes) (iv : bytes) (ps cs : list bytes) : Prop :=
  length cs = length ps /\ forall i p, nth_error ps i = Some p -> nth_error cs i = Some (E (xor_octets p (nth i (iv :: cs) []))).
(** [ps] are the blocks that CBC decryption makes of [cs]. *)
Definition cbc_back (D : bytes -> bytes) (iv : bytes) (cs ps : list bytes) : Prop :=
  length ps = length cs /\ forall i c, nth_error cs i = Some c -> nth_error ps i = Some (xor_octets (D c) (nth i (iv :: cs) [])).
(** octets of a half of the key, and the hash *)
Definition cbc_sizes : list (nat * hashalg) := [(16%nat, SHA256); (24%nat, SHA384); (32%nat, SHA512)].

Lemma bxor_spec : forall a b, bxor a b = xor_octets a b.
Proof. induction a as [|x a IH]; intros [|y b]; try reflexivity. cbn [bxor]. rewrite IH. reflexivity. Qed.
Lemma cbc_enc_of : forall P ke bl prev, exists cs, cbc_enc P ke prev bl = concat cs /\ cbc_of (p_aes_enc P ke) prev bl cs.
Proof.
  intros P ke. induction bl as [|b bl IH]; intro prev; [exists []; split; [reflexivity|split; [reflexivity|intros [] p H; discriminate H]]|].
  cbn [cbc_enc]. cbv zeta. set (c := p_aes_enc P ke (bxor b prev)). destruct (IH c) as (cs & E & L & N). exists (c :: cs). split; [cbn [concat]; rewrite E; reflexivity|].
  split; [cbn [length]; congruence|]. intros [|i] p H; cbn [nth_error nth] in *; [injection H as <-; unfold c; rewrite bxor_spec; reflexivity|]. exact (N i p H).
Qed.
Lemma cbc_dec_of : forall P ke cs prev, exists ps, cbc_dec P ke prev cs = concat ps /\ cbc_back (p_aes_dec P ke) prev cs ps.
Proof.
  intros P ke. induction cs as [|c cs IH]; intro prev; [exists []; split; [reflexivity|split; [reflexivity|intros [] p H; discriminate H]]|].
  cbn [cbc_dec]. destruct (IH c) as (ps & E & L & N). exists (bxor (p_aes_dec P ke c) prev :: ps). split; [cbn [concat]; rewrite E; reflexivity|].
  split; [cbn [length]; congruence|]. intros [|i] p H; cbn [nth_error nth] in *; [injection H as <-; rewrite bxor_spec; reflexivity|]. exact (N i p H).
Qed.
Lemma blocks16_shape : forall s, (length s mod 16 = 0)%nat -> Forall (fun x : bytes => length x = 16%nat) (blocks16 s) /\ concat (blocks16 s) = s.
Proof.
  intros s M. pose proof (mod16_nblocks s M) as L. unfold blocks16. split; [|rewrite blocks16_n_concat, <- L, firstn_all; reflexivity].
  assert (G : forall n (t : bytes), (16 * n <= length t)%nat -> Forall (fun x : bytes => length x = 16%nat) (blocks16_n n t)).
  { induction n as [|n IH]; intros t H; [constructor|]. cbn [blocks16_n]. constructor; [apply firstn_length_le; lia|]. apply IH. rewrite skipn_length. lia. }
  apply G. lia.
Qed.

Lemma sizes_of : forall key iv t, get_keys_seclen_dgst key iv = Ok t -> exists n h, In (n, h) cbc_sizes /\ length key = (2 * n)%nat /\ length iv = 16%nat /\ t = (firstn n key, skipn n key, n, h).
Proof.
  intros key iv t H. unfold get_keys_seclen_dgst, LENMET in H. destruct (Nat.eqb (length iv) 16) eqn:I; [|discriminate H]. apply Nat.eqb_eq in I. cbn [negb] in H.
  destruct (Nat.eqb (length key) 32) eqn:K1; [|destruct (Nat.eqb (length key) 48) eqn:K2; [|destruct (Nat.eqb (length key) 64) eqn:K3; [|discriminate H]]]; injection H as <-.
  - apply Nat.eqb_eq in K1. exists 16%nat, SHA256. repeat split; try assumption. left; reflexivity.
  - apply Nat.eqb_eq in K2. exists 24%nat, SHA384. repeat split; try assumption. right; left; reflexivity.
  - apply Nat.eqb_eq in K3. exists 32%nat, SHA512. repeat split; try assumption. right; right; left; reflexivity.
Qed.

Theorem cbc_hmac_spec : forall P key iv aad pt ct tag, aes_cbc_hmac_encrypt P key iv aad pt = Ok (ct, tag) ->
  exists n h pad ps cs, In (n, h) cbc_sizes /\ length key = (2 * n)%nat /\ length iv = 16%nat /\ (1 <= pad <= 16)%nat /\
    Forall (fun b : bytes => length b = 16%nat) ps /\ concat ps = pt ++ repeat (Z.of_nat pad) pad /\ ct = concat cs /\ cbc_of (p_aes_enc P (skipn n key)) iv ps cs /\
    tag = firstn n (p_hmac P h (firstn n key) (aad ++ iv ++ ct ++ z2be 8 (8 * Z.of_nat (length aad)))).
Proof.
  intros P key iv aad pt ct tag H. unfold aes_cbc_hmac_encrypt in H. destruct (get_keys_seclen_dgst key iv) as [t|] eqn:K; [|discriminate H].
  destruct (sizes_of _ _ _ K) as (n & h & I & LK & LI & ->). cbn [bind] in H. unfold cbc_encrypt in H.
  destruct (Nat.eqb (length (pkcs5pad pt) mod 16) 0) eqn:M; [|discriminate H]. apply Nat.eqb_eq in M. cbn [bind] in H. unfold pack_Q in H.
  destruct ((0 <=? _) && _); [|discriminate H]. cbn [bind] in H. injection H as <- <-.
  destruct (blocks16_shape _ M) as [F C]. destruct (cbc_enc_of P (skipn n key) (blocks16 (pkcs5pad pt)) iv) as (cs & E & S1).
  exists n, h, (16 - length pt mod 16)%nat, (blocks16 (pkcs5pad pt)), cs. pose proof (Nat.mod_upper_bound (length pt) 16 ltac:(lia)).
  split; [exact I|]. split; [exact LK|]. split; [exact LI|]. split; [lia|]. split; [exact F|]. split; [rewrite C; apply pkcs5pad_eq|]. split; [exact E|]. split; [exact S1|reflexivity].
Qed.
Theorem cbc_hmac_spec_dec : forall P key iv aad ct tag pt, aes_cbc_hmac_decrypt P key iv aad ct tag = Ok pt ->
  exists n h ps cs last, In (n, h) cbc_sizes /\ length key = (2 * n)%nat /\ length iv = 16%nat /\
    tag = firstn n (p_hmac P h (firstn n key) (aad ++ iv ++ ct ++ z2be 8 (8 * Z.of_nat (length aad)))) /\
    Forall (fun b : bytes => length b = 16%nat) cs /\ ct = concat cs /\ cbc_back (p_aes_dec P (skipn n key)) iv cs ps /\
    (exists front, concat ps = front ++ [last]) /\ last <= 16 /\ (0 < last -> pt = firstn (length (concat ps) - Z.to_nat last) (concat ps)) /\ (last <= 0 -> pt = []).
Proof.
  intros P key iv aad ct tag pt H. unfold aes_cbc_hmac_decrypt in H. destruct (get_keys_seclen_dgst key iv) as [t|] eqn:K; [|discriminate H].
  destruct (sizes_of _ _ _ K) as (n & h & I & LK & LI & ->). cbn [bind] in H. unfold pack_Q in H.
  destruct ((0 <=? _) && _); [|discriminate H]. cbn [bind] in H. destruct (zs_eqb _ tag) eqn:T in H; [|discriminate H]. apply zs_eqb_eq in T.
  unfold cbc_decrypt in H. destruct (Nat.eqb (length ct mod 16) 0) eqn:M; [|discriminate H]. apply Nat.eqb_eq in M. cbn [bind] in H.
  destruct (blocks16_shape _ M) as [F C]. destruct (cbc_dec_of P (skipn n key) (blocks16 ct) iv) as (ps & E & S1). rewrite E in H.
  unfold pkcs5trim in H. destruct (rev (concat ps)) as [|l r] eqn:R; [discriminate H|]. destruct (16 <? l) eqn:L; [discriminate H|]. injection H as <-.
  exists n, h, ps, (blocks16 ct), l. split; [exact I|]. split; [exact LK|]. split; [exact LI|]. split; [symmetry; exact T|]. split; [exact F|]. split; [symmetry; exact C|]. split; [exact S1|].
  split; [exists (rev r); rewrite <- (rev_involutive (concat ps)), R; reflexivity|]. split; [lia|]. unfold drop_last. split; intro L0.
  - destruct (Z.to_nat l) eqn:Z1; [lia|reflexivity].
  - destruct (Z.to_nat l) eqn:Z1; [reflexivity|lia].
Qed.
