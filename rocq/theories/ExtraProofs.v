(** Proofs about extra.py. *)
From Coq Require Import ZArith List Bool Lia ZifyBool.
From Verif Require Import Base BaseProofs Prims Elliptic Ecc KeyWrapProofs Extra.
Import ListNotations.
Open Scope Z_scope.

Ltac Zify.zify_post_hook ::= Z.div_mod_to_equations.

(** ** Padding *)
Lemma pkcs5pad_eq : forall x, pkcs5pad x = x ++ repeat (Z.of_nat (16 - length x mod 16)) (16 - length x mod 16).
Proof.
  intro x. unfold pkcs5pad. pose proof (Nat.mod_upper_bound (length x) 16 ltac:(lia)) as B.
  destruct (Nat.eqb (16 - length x mod 16) 0) eqn:E; [apply Nat.eqb_eq in E; lia|reflexivity].
Qed.

Lemma pkcs5pad_length : forall x, length (pkcs5pad x) = (16 * (length x / 16 + 1))%nat.
Proof.
  intro x. rewrite pkcs5pad_eq, app_length, repeat_length. pose proof (Nat.div_mod (length x) 16 ltac:(lia)) as D.
  pose proof (Nat.mod_upper_bound (length x) 16 ltac:(lia)) as B. lia.
Qed.

Lemma pkcs5pad_ok : forall x, bytes_ok (pkcs5pad x) = bytes_ok x.
Proof.
  intro x. rewrite pkcs5pad_eq, bytes_ok_app, bytes_ok_repeat; [apply andb_true_r|].
  apply is_byte_spec. pose proof (Nat.mod_upper_bound (length x) 16 ltac:(lia)) as B. lia.
Qed.

Lemma pkcs5_round : forall x, pkcs5trim (pkcs5pad x) = Ok x.
Proof.
  intro x. rewrite pkcs5pad_eq. pose proof (Nat.mod_upper_bound (length x) 16 ltac:(lia)) as B.
  set (n := (16 - length x mod 16)%nat). assert (N : (0 < n <= 16)%nat) by (unfold n; lia). clearbody n. clear B.
  unfold pkcs5trim. rewrite rev_app_distr, rev_repeat. destruct n as [|m] eqn:E; [lia|]. rewrite <- E. rewrite E at 2. cbn [repeat app].
  replace (16 <? Z.of_nat n) with false by lia. rewrite Nat2Z.id. unfold drop_last. rewrite E at 1.
  rewrite app_length, repeat_length. replace (length x + n - n)%nat with (length x) by lia.
  rewrite firstn_app, Nat.sub_diag, firstn_O, app_nil_r, firstn_all. reflexivity.
Qed.

Lemma pkcs5trim_spec : forall x y, bytes_ok x = true -> pkcs5trim x = Ok y ->
  exists n, nth_error (rev x) 0 = Some n /\ 0 <= n <= 16 /\ y = (if n =? 0 then [] else firstn (length x - Z.to_nat n) x).
Proof.
  intros x y B H. unfold pkcs5trim in H. destruct (rev x) as [|n r] eqn:E; [discriminate|]. destruct (16 <? n) eqn:G; [discriminate|].
  injection H as <-. exists n. split; [reflexivity|]. assert (0 <= n < 256).
  { apply bytes_ok_In with x; [exact B|]. apply in_rev. rewrite E. left. reflexivity. }
  split; [lia|]. unfold drop_last. destruct (n =? 0) eqn:Z0.
  - assert (n = 0) by lia. subst. reflexivity.
  - destruct (Z.to_nat n) eqn:T; [lia|reflexivity].
Qed.

Lemma pkcs5trim_rejects : forall x, bytes_ok x = true ->
  (pkcs5trim x = Raise EStructError <-> x = []) /\ (pkcs5trim x = Raise EException <-> exists n r, x = r ++ [n] /\ 16 < n).
Proof.
  intros x B. unfold pkcs5trim. destruct (rev x) as [|n r] eqn:E.
  - assert (x = []) by (rewrite <- (rev_involutive x), E; reflexivity). subst. split; split; intro H; try reflexivity; try discriminate.
    destruct H as (n & r & H & _). destruct r; discriminate.
  - assert (X : x = rev r ++ [n]) by (rewrite <- (rev_involutive x), E; reflexivity). split; split; intro H.
    + destruct (16 <? n); discriminate.
    + rewrite H in E. discriminate.
    + exists n, (rev r). split; [exact X|]. destruct (16 <? n) eqn:G; [lia|discriminate].
    + destruct H as (n' & r' & H & G). rewrite X in H. apply app_inj_tail in H. destruct H as [_ <-]. replace (16 <? n) with true by lia. reflexivity.
Qed.

(** ** Blocks *)
Definition blk16 := is_block.

Lemma blocks16_n_length : forall n s, length (blocks16_n n s) = n.
Proof. induction n as [|n IH]; intro s; cbn [blocks16_n length]; [reflexivity|]. rewrite IH. reflexivity. Qed.

Lemma blocks16_n_ok : forall n s, (16 * n <= length s)%nat -> bytes_ok s = true -> Forall is_block (blocks16_n n s).
Proof.
  induction n as [|n IH]; intros s L H; [constructor|]. cbn [blocks16_n]. constructor.
  - split; [rewrite firstn_length; lia|apply bytes_ok_firstn; exact H].
  - apply IH; [rewrite skipn_length; lia|apply bytes_ok_skipn; exact H].
Qed.

Lemma blocks16_n_concat : forall n s, concat (blocks16_n n s) = firstn (16 * n) s.
Proof.
  induction n as [|n IH]; intro s; [reflexivity|]. cbn [blocks16_n concat]. rewrite IH.
  replace (16 * S n)%nat with (16 + 16 * n)%nat by lia.
  rewrite <- (firstn_skipn 16 s) at 3. rewrite firstn_app, firstn_firstn.
  replace (Init.Nat.min (16 + 16 * n) 16) with 16%nat by lia. f_equal.
  destruct (Nat.le_gt_cases 16 (length s)) as [L|L].
  - f_equal. rewrite firstn_length. lia.
  - rewrite skipn_all2 by lia. rewrite !firstn_nil. reflexivity.
Qed.

Lemma blocks16_n_of_concat : forall r s, Forall (fun x => length x = 16%nat) r -> blocks16_n (length r) (concat r ++ s) = r.
Proof.
  induction r as [|x r IH]; intros s H; [reflexivity|]. inversion_clear H as [|? ? L H2]. cbn [length blocks16_n concat].
  rewrite <- app_assoc. rewrite <- L. rewrite firstn_app, firstn_all, Nat.sub_diag, firstn_O, app_nil_r.
  rewrite skipn_app, skipn_all, Nat.sub_diag, skipn_O. cbn [app]. rewrite IH by exact H2. reflexivity.
Qed.

Lemma concat_blk_length : forall r, Forall (fun x : bytes => length x = 16%nat) r -> length (concat r) = (16 * length r)%nat.
Proof. induction r as [|x r IH]; intro H; [reflexivity|]. inversion_clear H as [|? ? L H2]. cbn [concat length]. rewrite app_length, L, (IH H2). lia. Qed.

Lemma mod16_nblocks : forall s : bytes, (length s mod 16 = 0)%nat -> length s = (16 * ((length s + 15) / 16))%nat.
Proof.
  intros s M. pose proof (Nat.div_mod (length s) 16 ltac:(lia)) as D. rewrite M in D.
  replace ((length s + 15) / 16)%nat with (length s / 16)%nat; [lia|]. apply (Nat.div_unique _ 16 _ 15); lia.
Qed.

Lemma blocks16_ok : forall s, (length s mod 16 = 0)%nat -> bytes_ok s = true -> Forall is_block (blocks16 s) /\ concat (blocks16 s) = s /\ length s = (16 * length (blocks16 s))%nat.
Proof.
  intros s M B. pose proof (mod16_nblocks s M) as L. unfold blocks16. split; [apply blocks16_n_ok; [lia|exact B]|].
  rewrite blocks16_n_length. split; [|exact L]. rewrite blocks16_n_concat, <- L, firstn_all. reflexivity.
Qed.

Lemma blocks16_of_concat : forall r, Forall (fun x : bytes => length x = 16%nat) r -> blocks16 (concat r) = r.
Proof.
  intros r H. unfold blocks16. rewrite (concat_blk_length r H). replace ((16 * length r + 15) / 16)%nat with (length r).
  - rewrite <- (app_nil_r (concat r)). apply blocks16_n_of_concat. exact H.
  - apply (Nat.div_unique _ 16 _ 15); lia.
Qed.

(** ** XOR of octet strings *)
Lemma bxor_length : forall a b, length a = length b -> length (bxor a b) = length a.
Proof. induction a as [|x a IH]; destruct b; intro H; try discriminate; [reflexivity|]. cbn in *. rewrite IH; lia. Qed.

Lemma bxor_ok : forall a b, bytes_ok a = true -> bytes_ok b = true -> bytes_ok (bxor a b) = true.
Proof.
  induction a as [|x a IH]; destruct b as [|y b]; intros A B; try reflexivity. cbn [bxor]. rewrite bytes_ok_cons in *.
  apply andb_prop in A. apply andb_prop in B. destruct A as [A1 A2], B as [B1 B2]. rewrite IH by assumption. rewrite andb_true_r.
  apply is_byte_spec in A1. apply is_byte_spec in B1. apply is_byte_spec. change 256 with (2 ^ 8) in *. apply lxor_bound; lia.
Qed.

Lemma bxor_cancel : forall a b, length a = length b -> bxor (bxor a b) b = a.
Proof. induction a as [|x a IH]; destruct b as [|y b]; intro H; try discriminate; [reflexivity|]. cbn [bxor]. rewrite lxor_cancel, IH; [reflexivity|]. cbn in H. lia. Qed.

Lemma bxor_block : forall a b, is_block a -> is_block b -> is_block (bxor a b).
Proof. intros a b [A1 A2] [B1 B2]. split; [rewrite bxor_length; lia|apply bxor_ok; assumption]. Qed.

(** ** CBC and HMAC *)
Section CbcHmac.
Variable P : prims.

Section Cbc.
Hypothesis AES : aes_law P.
Variable ke : bytes.
Hypothesis KS : aes_keysize ke = true.
Hypothesis KB : bytes_ok ke = true.

(** the blocks of the ciphertext *)
Fixpoint cbc_blocks (prev : bytes) (bl : list bytes) : list bytes :=
  match bl with [] => [] | b :: r => let c := p_aes_enc P ke (bxor b prev) in c :: cbc_blocks c r end.

Lemma cbc_enc_blocks : forall bl prev, cbc_enc P ke prev bl = concat (cbc_blocks prev bl).
Proof. induction bl as [|b r IH]; intro prev; [reflexivity|]. cbn [cbc_enc cbc_blocks concat]. rewrite IH. reflexivity. Qed.

Lemma cbc_blocks_ok : forall bl prev, Forall is_block bl -> is_block prev ->
  Forall is_block (cbc_blocks prev bl) /\ length (cbc_blocks prev bl) = length bl /\ cbc_dec P ke prev (cbc_blocks prev bl) = concat bl.
Proof.
  induction bl as [|b r IH]; intros prev H I; [repeat split; constructor|]. inversion_clear H as [|? ? B R]. cbn [cbc_blocks].
  destruct (AES ke (bxor b prev) KS KB (bxor_block b prev B I)) as (E1 & _ & E3 & _). destruct (IH _ R E1) as (I1 & I2 & I3).
  split; [constructor; assumption|]. split; [cbn; lia|]. cbn [cbc_dec concat]. rewrite I3, E3, bxor_cancel; [reflexivity|].
  destruct B as [-> _], I as [-> _]. reflexivity.
Qed.

Lemma cbc_round : forall iv pt, is_block iv -> bytes_ok pt = true -> (length pt mod 16 = 0)%nat ->
  exists ct, cbc_encrypt P ke iv pt = Ok ct /\ bytes_ok ct = true /\ length ct = length pt /\ cbc_decrypt P ke iv ct = Ok pt.
Proof.
  intros iv pt I B M. destruct (blocks16_ok pt M B) as (F & C & L). unfold cbc_encrypt, cbc_decrypt. rewrite M. cbn [Nat.eqb].
  rewrite cbc_enc_blocks. destruct (cbc_blocks_ok (blocks16 pt) iv F I) as (F2 & L2 & D).
  assert (F3 : Forall (fun x : bytes => length x = 16%nat) (cbc_blocks iv (blocks16 pt))) by (eapply Forall_impl; [|exact F2]; intros a [E _]; exact E).
  eexists. split; [reflexivity|]. pose proof (concat_blk_length _ F3) as CL. split.
  - clear -F2. induction F2 as [|x l [_ X] _ IH]; [reflexivity|]. cbn [concat]. rewrite bytes_ok_app, X, IH. reflexivity.
  - split; [lia|]. rewrite CL. rewrite Nat.mul_comm, Nat.mod_mul by lia. cbn [Nat.eqb]. rewrite blocks16_of_concat by exact F3.
    rewrite D, C. reflexivity.
Qed.
End Cbc.

(** the key sizes and what they select *)
Lemma get_keys_ok : forall key iv, (length key = 32 \/ length key = 48 \/ length key = 64)%nat -> length iv = 16%nat -> bytes_ok key = true ->
  exists ka ke seclen dgst, get_keys_seclen_dgst key iv = Ok (ka, ke, seclen, dgst) /\ key = ka ++ ke /\
   seclen = (length key / 2)%nat /\ length ka = seclen /\ length ke = seclen /\ aes_keysize ke = true /\ bytes_ok ka = true /\ bytes_ok ke = true /\
   hlen dgst = length key.
Proof.
  intros key iv K I B. unfold get_keys_seclen_dgst. rewrite I. cbn [Nat.eqb negb].
  destruct K as [K|[K|K]]; rewrite K; cbn [LENMET Nat.eqb]; (do 4 eexists); (split; [reflexivity|]); (split; [symmetry; apply firstn_skipn|]);
    (split; [reflexivity|]); (split; [rewrite firstn_length, K; reflexivity|]); (split; [rewrite skipn_length, K; reflexivity|]);
    (split; [unfold aes_keysize; rewrite skipn_length, K; reflexivity|]); (split; [apply bytes_ok_firstn; exact B|]); (split; [apply bytes_ok_skipn; exact B|reflexivity]).
Qed.

Lemma pack_Q_ok : forall n, 0 <= n < 2 ^ 64 -> pack_Q n = Ok (z2be 8 n).
Proof. intros n H. unfold pack_Q. replace ((0 <=? n) && (n <? 2 ^ 64)) with true by lia. reflexivity. Qed.
Lemma pack_I_ok : forall n, 0 <= n < 2 ^ 32 -> pack_I n = Ok (z2be 4 n).
Proof. intros n H. unfold pack_I. replace ((0 <=? n) && (n <? 2 ^ 32)) with true by lia. reflexivity. Qed.

Lemma cbc_hmac_round : forall key iv aad pt, aes_law P -> (length key = 32 \/ length key = 48 \/ length key = 64)%nat -> length iv = 16%nat ->
  bytes_ok key = true -> bytes_ok iv = true -> bytes_ok pt = true -> 8 * Z.of_nat (length aad) < 2 ^ 64 ->
  exists ct tag, aes_cbc_hmac_encrypt P key iv aad pt = Ok (ct, tag) /\ bytes_ok ct = true /\
    length ct = (16 * (length pt / 16 + 1))%nat /\ aes_cbc_hmac_decrypt P key iv aad ct tag = Ok pt.
Proof.
  intros key iv aad pt AES K I KB IB PB A. destruct (get_keys_ok key iv K I KB) as (ka & ke & seclen & dgst & E & _ & _ & _ & _ & KS & _ & KEB & _).
  unfold aes_cbc_hmac_encrypt, aes_cbc_hmac_decrypt. rewrite E. cbn [bind].
  pose proof (pkcs5pad_length pt) as PL.
  destruct (cbc_round AES ke KS KEB iv (pkcs5pad pt) (conj I IB)) as (ct & C1 & C2 & C3 & C4).
  { rewrite pkcs5pad_ok. exact PB. } { rewrite PL, Nat.mul_comm. apply Nat.mod_mul. lia. }
  rewrite C1, pack_Q_ok by lia. cbn [bind]. do 2 eexists. split; [reflexivity|]. split; [exact C2|]. split; [lia|]. rewrite zs_eqb_refl, C4. cbn [bind]. apply pkcs5_round.
Qed.

(** The MAC input of RFC 7516 appendix / RFC 7518 section 5.2.2.1. *)
Definition cbc_mac_spec (key iv aad ct : bytes) : bytes :=
  let half := (length key / 2)%nat in
  firstn half (p_hmac P (if Nat.eqb (length key) 32 then SHA256 else if Nat.eqb (length key) 48 then SHA384 else SHA512)
                 (firstn half key) (aad ++ iv ++ ct ++ z2be 8 (8 * Z.of_nat (length aad)))).

Lemma cbc_hmac_auth : forall key iv aad ct tag pt, aes_cbc_hmac_decrypt P key iv aad ct tag = Ok pt ->
  length iv = 16%nat /\ (length key = 32 \/ length key = 48 \/ length key = 64)%nat /\ tag = cbc_mac_spec key iv aad ct.
Proof.
  intros key iv aad ct tag pt H. unfold aes_cbc_hmac_decrypt, get_keys_seclen_dgst in H.
  destruct (Nat.eqb (length iv) 16) eqn:I; [|discriminate]. apply Nat.eqb_eq in I. cbn [negb] in H. split; [exact I|].
  unfold cbc_mac_spec. unfold LENMET in H.
  destruct (Nat.eqb (length key) 32) eqn:K1; [|destruct (Nat.eqb (length key) 48) eqn:K2; [|destruct (Nat.eqb (length key) 64) eqn:K3; [|discriminate]]];
    cbn [bind] in H; unfold pack_Q in H; (destruct ((0 <=? 8 * Z.of_nat (length aad)) && (8 * Z.of_nat (length aad) <? 2 ^ 64)); [|discriminate]); cbn [bind] in H;
    (match type of H with (if zs_eqb ?a ?b then _ else _) = _ => destruct (zs_eqb a b) eqn:T; [|discriminate] end); apply zs_eqb_eq in T.
  - apply Nat.eqb_eq in K1. rewrite K1. split; [lia|]. symmetry. exact T.
  - apply Nat.eqb_eq in K2. rewrite K2. split; [lia|]. symmetry. exact T.
  - apply Nat.eqb_eq in K3. rewrite K3. split; [lia|]. symmetry. exact T.
Qed.

Lemma cbc_hmac_reject : forall key iv aad ct tag, length iv = 16%nat -> (length key = 32 \/ length key = 48 \/ length key = 64)%nat ->
  8 * Z.of_nat (length aad) < 2 ^ 64 -> tag <> cbc_mac_spec key iv aad ct -> aes_cbc_hmac_decrypt P key iv aad ct tag = Raise EVerificationFailure.
Proof.
  intros key iv aad ct tag I K A T. unfold aes_cbc_hmac_decrypt, get_keys_seclen_dgst. rewrite I. cbn [Nat.eqb negb]. unfold cbc_mac_spec in T.
  destruct K as [K|[K|K]]; rewrite K in *; cbn [LENMET Nat.eqb bind] in *; rewrite pack_Q_ok by lia; cbn [bind];
  (match goal with |- (if zs_eqb ?a ?b then _ else _) = _ => destruct (zs_eqb a b) eqn:TE; [|reflexivity] end); apply zs_eqb_eq in TE; exfalso; apply T; symmetry; exact TE.
Qed.

(** what encryption computes *)
Lemma cbc_hmac_enc_tag : forall key iv aad pt ct tag, aes_cbc_hmac_encrypt P key iv aad pt = Ok (ct, tag) -> tag = cbc_mac_spec key iv aad ct.
Proof.
  intros key iv aad pt ct tag H. unfold aes_cbc_hmac_encrypt, get_keys_seclen_dgst in H.
  destruct (Nat.eqb (length iv) 16) eqn:I; [|discriminate]. cbn [negb] in H.
  unfold cbc_mac_spec. unfold LENMET in H.
  destruct (Nat.eqb (length key) 32) eqn:K1; [|destruct (Nat.eqb (length key) 48) eqn:K2; [|destruct (Nat.eqb (length key) 64) eqn:K3; [|discriminate]]];
    cbn [bind] in H;
    (match type of H with bind ?a _ = _ => destruct a; [|discriminate] end); cbn [bind] in H;
    unfold pack_Q in H; (destruct ((0 <=? 8 * Z.of_nat (length aad)) && (8 * Z.of_nat (length aad) <? 2 ^ 64)); [|discriminate]); cbn [bind] in H; injection H as <- <-.
  - apply Nat.eqb_eq in K1. rewrite K1. reflexivity.
  - apply Nat.eqb_eq in K2. rewrite K2. reflexivity.
  - apply Nat.eqb_eq in K3. rewrite K3. reflexivity.
Qed.
End CbcHmac.

Lemma app_inj_length : forall A (a b c d : list A), length a = length c -> a ++ b = c ++ d -> a = c /\ b = d.
Proof.
  induction a as [|x a IH]; destruct c as [|y c]; intros d L H; try discriminate; [split; [reflexivity|exact H]|].
  cbn in *. injection H as <- H. destruct (IH b c d ltac:(lia) H) as [-> ->]. split; reflexivity.
Qed.
Lemma app_inj_length_r : forall A (a b c d : list A), length b = length d -> a ++ b = c ++ d -> a = c /\ b = d.
Proof. intros A a b c d L H. apply app_inj_length; [|exact H]. apply (f_equal (@length A)) in H. rewrite !app_length in H. lia. Qed.

Lemma mac_input_inj : forall aad iv ct aad' iv' ct', length iv = 16%nat -> length iv' = 16%nat ->
  8 * Z.of_nat (length aad) < 2 ^ 64 -> 8 * Z.of_nat (length aad') < 2 ^ 64 ->
  aad ++ iv ++ ct ++ z2be 8 (8 * Z.of_nat (length aad)) = aad' ++ iv' ++ ct' ++ z2be 8 (8 * Z.of_nat (length aad')) ->
  aad = aad' /\ iv = iv' /\ ct = ct'.
Proof.
  intros aad iv ct aad' iv' ct' I I' A A' H. rewrite !app_assoc in H. apply app_inj_length_r in H; [|rewrite !z2be_length; reflexivity]. destruct H as [H L].
  apply (f_equal be2z) in L. rewrite !be2z_z2be in L by lia. rewrite <- !app_assoc in H. apply app_inj_length in H; [|lia]. destruct H as [-> H].
  apply app_inj_length in H; [|lia]. destruct H as [-> ->]. repeat split.
Qed.

(** ** Concat KDF *)
Section Concat.
Variable P : prims.
Hypothesis HL : hash_law P.

(** H(1||secret||info) || H(2||secret||info) || ... || H(m||secret||info) *)
Definition kdf_stream (secret info : bytes) (m : nat) : bytes :=
  concat (map (fun i => p_hash P SHA256 (z2be 4 (Z.of_nat i) ++ secret ++ info)) (seq 1 m)).

Lemma kdf_stream_S : forall s i m, kdf_stream s i (S m) = kdf_stream s i m ++ p_hash P SHA256 (z2be 4 (Z.of_nat (S m)) ++ s ++ i).
Proof. intros. unfold kdf_stream. rewrite seq_S, map_app, concat_app. cbn [map concat]. rewrite app_nil_r. reflexivity. Qed.

Lemma kdf_stream_length : forall s i m, bytes_ok s = true -> bytes_ok i = true -> length (kdf_stream s i m) = (32 * m)%nat.
Proof.
  intros s i m SB IB. induction m as [|m IH]; [reflexivity|]. rewrite kdf_stream_S, app_length, IH.
  destruct (HL SHA256 (z2be 4 (Z.of_nat (S m)) ++ s ++ i)) as [-> _]; [rewrite !bytes_ok_app, z2be_ok, SB, IB; reflexivity|]. cbn [hlen]. lia.
Qed.

Lemma concat_loop_ok : forall f c n s i, bytes_ok s = true -> bytes_ok i = true -> n <= 32 * (2 ^ 32 - 1) -> n <= 32 * (Z.of_nat f + Z.of_nat c) -> 32 * (Z.of_nat c - 1) < Z.max 0 n ->
  concat_loop P f (Z.of_nat c) n (kdf_stream s i c) s i = Ok (kdf_stream s i (Z.to_nat ((n + 31) / 32))).
Proof.
  induction f as [|f IH]; intros c n s i SB IB N F C.
  - cbn [concat_loop]. rewrite kdf_stream_length by assumption. replace (Z.of_nat (32 * c) <? n) with false by lia. do 2 f_equal. lia.
  - cbn [concat_loop]. rewrite kdf_stream_length by assumption. destruct (Z.of_nat (32 * c) <? n) eqn:E.
    + rewrite pack_I_ok by lia. cbn [bind]. replace (Z.of_nat c + 1) with (Z.of_nat (S c)) by lia. rewrite <- kdf_stream_S. apply IH; try assumption; lia.
    + do 2 f_equal. lia.
Qed.

Lemma concat_sha256_ok : forall s n i, bytes_ok s = true -> bytes_ok i = true -> n <= 256 * (2 ^ 32 - 1) ->
  concat_sha256 P s n i = Ok (firstn (Z.to_nat ((n + 7) / 8)) (kdf_stream s i (Z.to_nat ((n + 255) / 256)))) /\
  length (firstn (Z.to_nat ((n + 7) / 8)) (kdf_stream s i (Z.to_nat ((n + 255) / 256)))) = Z.to_nat ((n + 7) / 8).
Proof.
  intros s n i SB IB N. split.
  - unfold concat_sha256. change (@nil Z) with (kdf_stream s i 0). change 0 with (Z.of_nat 0).
    rewrite concat_loop_ok by (try assumption; lia). cbn [bind]. replace (((n + 7) / 8 + 31) / 32) with ((n + 255) / 256) by lia. reflexivity.
  - rewrite firstn_length, kdf_stream_length by assumption. lia.
Qed.
End Concat.

(** OtherInfo of RFC 7518, section 4.6.2 *)
Definition other_info_rfc (apu apv alg : bytes) (dk_len : Z) : bytes :=
  (z2be 4 (Z.of_nat (length alg)) ++ alg) ++ (z2be 4 (Z.of_nat (length apu)) ++ apu) ++ (z2be 4 (Z.of_nat (length apv)) ++ apv) ++ z2be 4 dk_len.

Lemma other_info_ok : forall apu apv alg dk, Z.of_nat (length apu) < 2 ^ 32 -> Z.of_nat (length apv) < 2 ^ 32 -> 0 <= dk < 2 ^ 32 ->
  other_info apu apv alg dk = Ok (skipn 4 (other_info_rfc apu apv alg dk)).
Proof.
  intros. unfold other_info. rewrite !pack_I_ok by lia. cbn [bind]. unfold other_info_rfc. rewrite <- !app_assoc.
  rewrite skipn_app, z2be_length, Nat.sub_diag, skipn_O, skipn_all2 by (rewrite z2be_length; lia). reflexivity.
Qed.

Lemma Ok_inj : forall A (a b : A), Ok a = Ok b -> a = b.
Proof. intros A a b H. congruence. Qed.

Lemma other_info_inj : forall alg apu apv dk apu' apv' dk' o, other_info apu apv alg dk = Ok o -> other_info apu' apv' alg dk' = Ok o ->
  apu = apu' /\ apv = apv' /\ dk = dk'.
Proof.
  intros alg apu apv dk apu' apv' dk' o H H'. unfold other_info, pack_I in *.
  repeat match type of H with context[if ?c then _ else _] => destruct c eqn:?; cbn [bind] in H; try discriminate H end.
  repeat match type of H' with context[if ?c then _ else _] => destruct c eqn:?; cbn [bind] in H'; try discriminate H' end.
  apply Ok_inj in H. apply Ok_inj in H'. subst o. apply app_inv_head in H'. rewrite <- !app_assoc in H'.
  apply app_inj_length in H'; [|rewrite !z2be_length; reflexivity]. destruct H' as [E1 H'].
  apply (f_equal be2z) in E1. rewrite !be2z_z2be in E1 by lia. apply app_inj_length in H'; [|lia]. destruct H' as [-> H'].
  apply app_inj_length in H'; [|rewrite !z2be_length; reflexivity]. destruct H' as [E2 H']. apply (f_equal be2z) in E2. rewrite !be2z_z2be in E2 by lia.
  apply app_inj_length in H'; [|lia]. destruct H' as [-> E3]. apply (f_equal be2z) in E3. rewrite !be2z_z2be in E3 by lia. repeat split. lia.
Qed.
