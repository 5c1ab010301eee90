(** * Header dictionaries given in several places of one call of sign_json
    [signature_entry["header"] = unprotected] (jws.py:609) keeps a reference, and [json.dumps] at the end writes what the
    dictionary is by then. *)
From Coq Require Import ZArith List Bool Lia Arith.
From Verif Require Import Base BaseProofs Prims Inst Extra ExtraProofs Utf8 Codec Json Jwt PvalEq Jwk JwkEx Jws JwsProofs6 JwsEx Caller Caller2.
Import ListNotations.
Open Scope Z_scope.

(** The loop of sign_json, jws.py:600-629, when protected and unprotected headers are the objects [store], referred to by
    number (None behaves like an empty dictionary): what it leaves in them, and the entries without and the reference to
    their unprotected header, if that is not empty. *)
Fixpoint create_refs (P : prims) (Es : nat -> entropy) (i : nat) (s : jws) (keys : option (list jwk)) (store : list dict) (hds : list (nat * nat)) : list dict * res (list (dict * option nat)) :=
  match hds with
  | [] => (store, Ok [])
  | (r, u) :: t =>
      let p := nth r store [] in
      let store := put store r (create_signature_left P s keys p) in
      match create_signature P (Es i) s keys (p, []) with
      | Raise e => (store, Raise e)
      | Ok e =>
          let h := match nth u store [] with [] => None | _ => Some u end in
          let (store, x) := create_refs P Es (S i) s keys store t in (store, es <- x;; Ok ((e, h) :: es))
      end
  end.
(** An entry as json.dumps sees it: signature, header, protected. *)
Definition resolve (store : list dict) (eh : dict * option nat) : dict :=
  match eh with
  | (x :: r, Some n) => x :: (lit "header", VDict (nth n store [])) :: r
  | (e, _) => e
  end.
(** sign_json, jws.py:590-631, with such headers; what is left in the dictionaries and the text. *)
Definition sign_json_refs (P : prims) (Es : nat -> entropy) (s : jws) (keys : option (list jwk)) (store : list dict) (hds : list (nat * nat)) (flatten : bool) : list dict * res ustr :=
  match (match s_msg s with VStr m => b64e_enc_dec m | _ => Raise EAttributeError end) with
  | Raise e => (store, Raise e)
  | Ok pl =>
      let res := [(lit "payload", VStr pl)] in
      let (store, x) := create_refs P Es 0 s keys store hds in
      (store, es <- x;; dumps true (VDict (match flatten, es with
         | true, [e] => dupd res (resolve store e)
         | _, _ => dset res (lit "signatures") (VList (map (fun e => VDict (resolve store e)) es))
         end)))
  end.

Section Refs.
Variable P : prims.

Lemma left_empty : forall s keys p, create_signature_left P s keys p = [] -> p = [].
Proof.
  intros s keys p H. destruct p as [|kv p]; [reflexivity|]. exfalso. unfold create_signature_left in H. destruct (dget (s_dict s) (lit "alg")) as [a|]; [|discriminate H]. cbv zeta in H.
  assert (D : forall d n (v : pval), dset d n v <> []) by (intros d n v X; destruct d as [|[m w] d]; cbn [dset] in X; [discriminate X|destruct (zs_eqb m n); discriminate X]).
  pose proof (with_alg_ne (kv :: p) a) as N. set (ph := with_alg (kv :: p) a) in *. clearbody ph.
  destruct (dmem ph (lit "self") || dmem ph (lit "msg")); [congruence|]. destruct (jws_init P (s_msg s) (ddel ph (lit "with_digest")) None) as [i|]; [|congruence].
  unfold sign_compact_left in H. destruct ph as [|kv' ph]; [congruence|].
  assert (A : alg_keys_left P i keys (VStr (lit "sig")) (kv' :: ph) <> []).
  { unfold alg_keys_left. destruct (pick_alg i keys) as [s1 a1]. destruct (ks <- jws_keys P s1 keys;; pick_keys s1 ks (VStr (lit "sig")) a1) as [[|k ks]|]; [apply D| |discriminate]. cbv zeta. destruct (truthy (k_kid k)); apply D. }
  destruct (alg_keys P i keys (VStr (lit "sig")) (kv' :: ph)) as [s' [x|]]; [|exact (A H)]. destruct (dget (s_dict s') (lit "typ")); [exact (D _ _ _ H)|exact (A H)].
Qed.

(** Dictionaries do not become empty, nor stop being so. *)
Lemma put_empty : forall s keys (store : list dict) r n, nth n (put store r (create_signature_left P s keys (nth r store []))) [] = [] <-> nth n store [] = [].
Proof.
  intros s keys store r n. rewrite Caller.nth_put. destruct (Nat.eqb r n && Nat.ltb n (length store)) eqn:E; [|split; intro X; exact X]. apply andb_true_iff in E. destruct E as [E _]. apply Nat.eqb_eq in E. subst n.
  split; [apply left_empty|]. intros ->. reflexivity.
Qed.
Lemma refs_empty : forall hds Es i s keys (store : list dict) n, nth n (fst (create_refs P Es i s keys store hds)) [] = [] <-> nth n store [] = [].
Proof.
  induction hds as [|[r u] hds IH]; intros Es i s keys store n; [cbn [create_refs fst]; split; intro X; exact X|]. cbn [create_refs]. cbv zeta.
  destruct (create_signature P (Es i) s keys (nth r store [], [])) as [e|]; [|cbn [fst]; apply put_empty].
  specialize (IH Es (S i) s keys (put store r (create_signature_left P s keys (nth r store []))) n).
  destruct (create_refs P Es (S i) s keys (put store r (create_signature_left P s keys (nth r store []))) hds) as [st x]. cbn [fst] in *. rewrite IH. apply put_empty.
Qed.

(** One entry: the unprotected header only adds its member. *)
Lemma create_unprot : forall E s keys p u, create_signature P E s keys (p, u) =
  (e <- create_signature P E s keys (p, []);; Ok (resolve [u] (e, match u with [] => None | _ => Some 0%nat end))).
Proof.
  intros E s keys p u. unfold create_signature. destruct (dget (s_dict s) (lit "alg")) as [a|]; [|reflexivity]. cbn [bind]. cbv zeta.
  match goal with |- context [if ?b then Raise ETypeError else _] => destruct b; [reflexivity|] end.
  match goal with |- context [jws_init P ?m ?k ?o] => destruct (jws_init P m k o) as [i|]; [|reflexivity] end. cbn [bind].
  match goal with |- context [snd ?x] => destruct (snd x) as [t|]; [|reflexivity] end. cbn [bind].
  destruct (split 46 t) as [|h [|x [|y [|z w]]]]; try reflexivity. destruct u as [|kv u]; reflexivity.
Qed.

(** The entries are those for the contents the unprotected headers have in the end. *)
Theorem refs_final : forall hds Es i s keys store,
  let r := create_refs P Es i s keys store hds in
  create_signatures_on P Es i s keys store (map (fun h => (fst h, nth (snd h) (fst r) [])) hds) = (fst r, es <- snd r;; Ok (map (fun e => VDict (resolve (fst r) e)) es)).
Proof.
  assert (G : forall hds Es i s keys (store fin : list dict), (forall n, nth n fin [] = [] <-> nth n store [] = []) ->
    create_signatures_on P Es i s keys store (map (fun h => (fst h, nth (snd h) fin [])) hds) =
      (fst (create_refs P Es i s keys store hds), es <- snd (create_refs P Es i s keys store hds);; Ok (map (fun e => VDict (resolve fin e)) es))).
  { induction hds as [|[r u] hds IH]; intros Es i s keys store fin INV; [reflexivity|]. cbn [map create_signatures_on create_refs fst snd]. cbv zeta. rewrite create_unprot.
    destruct (create_signature P (Es i) s keys (nth r store [], [])) as [e|]; [|reflexivity]. cbn [bind].
    rewrite (IH Es (S i) s keys (put store r (create_signature_left P s keys (nth r store []))) fin) by (intro n; rewrite INV; symmetry; apply put_empty).
    pose proof (put_empty s keys store r u) as PE. rewrite <- INV in PE.
    destruct (create_refs P Es (S i) s keys (put store r (create_signature_left P s keys (nth r store []))) hds) as [st x]. cbn [fst snd]. f_equal. destruct x as [es|]; [|reflexivity]. cbn [bind map]. f_equal. f_equal. f_equal.
    destruct (nth u fin []) as [|kv f] eqn:NF; destruct (nth u (put store r (create_signature_left P s keys (nth r store []))) []) as [|kv' f'].
    - reflexivity.
    - assert (X : kv' :: f' = []) by (apply PE; reflexivity). discriminate X.
    - assert (X : kv :: f = []) by (apply PE; reflexivity). discriminate X.
    - destruct e as [|x e]; [reflexivity|]. cbn [resolve]. rewrite NF. reflexivity. }
  intros hds Es i s keys store r. apply G. intro n. apply refs_empty.
Qed.

(** A dictionary that is no protected header stays as it is. *)
Lemma refs_other : forall hds Es i s keys (store : list dict) n, ~ In n (map fst hds) -> nth n (fst (create_refs P Es i s keys store hds)) [] = nth n store [].
Proof.
  induction hds as [|[r u] hds IH]; intros Es i s keys store n N; [reflexivity|]. cbn [create_refs map fst] in *. cbv zeta.
  assert (X : nth n (put store r (create_signature_left P s keys (nth r store []))) [] = nth n store []).
  { rewrite Caller.nth_put. destruct (Nat.eqb r n) eqn:E; [apply Nat.eqb_eq in E; subst n; exfalso; apply N; left; reflexivity|reflexivity]. }
  destruct (create_signature P (Es i) s keys (nth r store [], [])) as [e|]; [|exact X].
  specialize (IH Es (S i) s keys (put store r (create_signature_left P s keys (nth r store []))) n). destruct (create_refs P Es (S i) s keys (put store r (create_signature_left P s keys (nth r store []))) hds) as [st x]. cbn [fst] in *.
  rewrite IH by (intro I; apply N; right; exact I). exact X.
Qed.
(** A dictionary that is a protected header becomes that header. *)
Lemma refs_own : forall s keys, (forall i, plain_kids P i keys) -> forall hds Es i (store0 store : list dict), length store = length store0 ->
  (forall r, nth r store [] = nth r store0 [] \/ (nth r store [] = create_signature_left P s keys (nth r store0 []) /\ exists E u e, create_signature P E s keys (nth r store0 [], u) = Ok e)) ->
  forall es, snd (create_refs P Es i s keys store hds) = Ok es -> forall n, (n < length store)%nat -> In n (map fst hds) \/ nth n store [] = create_signature_left P s keys (nth n store0 []) ->
  nth n (fst (create_refs P Es i s keys store hds)) [] = create_signature_left P s keys (nth n store0 []).
Proof.
  intros s keys PK. induction hds as [|[r u] hds IH]; intros Es i store0 store LEN INV es H n LN I; cbn [create_refs map fst snd] in *; [destruct I as [[]|I]; exact I|]. cbv zeta in *.
  destruct (create_signature P (Es i) s keys (nth r store [], [])) as [e|] eqn:C; [|discriminate H].
  assert (L : create_signature_left P s keys (nth r store []) = create_signature_left P s keys (nth r store0 [])).
  { destruct (INV r) as [-> |(E1 & E & u0 & e0 & H0)]; [reflexivity|]. rewrite E1. apply (create_again P s keys _ PK _ _ _ H0). }
  assert (OK0 : exists E u0 e0, create_signature P E s keys (nth r store0 [], u0) = Ok e0) by (destruct (INV r) as [E1|(_ & X)]; [rewrite E1 in C; eauto|exact X]).
  set (store1 := put store r (create_signature_left P s keys (nth r store []))) in *.
  assert (LEN1 : length store1 = length store) by (unfold store1; clear; generalize (create_signature_left P s keys (nth r store [])) as v; revert r; induction store as [|x l IHl]; intros [|r] v; cbn [put length]; try reflexivity; f_equal; apply IHl).
  assert (INV1 : forall q, nth q store1 [] = nth q store0 [] \/ (nth q store1 [] = create_signature_left P s keys (nth q store0 []) /\ exists E u e, create_signature P E s keys (nth q store0 [], u) = Ok e)).
  { intro q. unfold store1. rewrite Caller.nth_put. destruct (Nat.eqb r q && Nat.ltb q (length store)) eqn:E; [|apply INV]. apply andb_true_iff in E. destruct E as [E _]. apply Nat.eqb_eq in E. subst q. right. split; [exact L|exact OK0]. }
  assert (CASE : In n (map fst hds) \/ nth n store1 [] = create_signature_left P s keys (nth n store0 [])).
  { assert (HR : n = r -> nth n store1 [] = create_signature_left P s keys (nth n store0 [])).
    { intros ->. unfold store1. rewrite Caller.nth_put, Nat.eqb_refl. apply Nat.ltb_lt in LN. rewrite LN. cbn [andb]. exact L. }
    destruct I as [[I|I]|I]; [right; apply HR; symmetry; exact I|left; exact I|]. destruct (Nat.eq_dec n r) as [D|D]; [right; apply HR; exact D|]. right. unfold store1. rewrite Caller.nth_put. destruct (Nat.eqb r n) eqn:Q; [apply Nat.eqb_eq in Q; congruence|exact I]. }
  specialize (IH Es (S i) store0 store1 (eq_trans LEN1 LEN) INV1).
  destruct (create_refs P Es (S i) s keys store1 hds) as [st [es'|]]; [|discriminate H]. cbn [fst snd] in *. apply (IH es' eq_refl n); [rewrite LEN1; exact LN|exact CASE].
Qed.

(** The text is that for copies of the protected headers as they were and of the unprotected ones as they are in the end. *)
Theorem json_refs_final : forall s keys, keys <> [] -> (forall k, In k keys -> plain (k_kid k) = true) -> forall Es (store : list dict) hds flatten,
  let r := sign_json_refs P Es s (Some keys) store hds flatten in
  snd r = sign_json P Es s (Some keys) (Some (map (fun h => (nth (fst h) store [], nth (snd h) (fst r) [])) hds)) flatten.
Proof.
  intros s keys NE PK Es store hds flatten. unfold sign_json_refs, sign_json.
  destruct (match s_msg s with VStr m => b64e_enc_dec m | _ => Raise EAttributeError end) as [pl|] eqn:PL; [|reflexivity]. cbn [bind]. cbv zeta.
  pose proof (refs_final hds Es 0 s (Some keys) store) as F. cbv zeta in F.
  assert (SH : forall st : list dict, snd (create_signatures_on P Es 0 s (Some keys) store (map (fun h => (fst h, nth (snd h) st [])) hds)) = create_signatures P Es 0 s (Some keys) (map (fun h => (nth (fst h) store [], nth (snd h) st [])) hds)).
  { intro st. rewrite (shared_harmless P s (Some keys)) with (store0 := store); [rewrite map_map; reflexivity| |intro q; left; reflexivity].
    intros i ks k J I. destruct keys as [|k0 r]; [congruence|]. cbn [jws_keys] in J. apply Ok_inj in J. subst ks.
    apply in_map_iff in I. destruct I as (x & X & I). injection X as ->. apply PK. exact I. }
  destruct (create_refs P Es 0 s (Some keys) store hds) as [st x]. cbn [fst snd] in *. specialize (SH st). rewrite F in SH. cbn [snd] in SH. clear F.
  destruct hds as [|h0 [|h1 hds]].
  - cbn [map create_signatures] in *. destruct x as [es|]; [|discriminate SH]. cbn [bind] in SH. apply Ok_inj in SH. destruct es as [|e es]; [|discriminate SH]. cbn [bind map]. destruct flatten; reflexivity.
  - cbn [map create_signatures] in *. destruct (create_signature P (Es 0%nat) s (Some keys) (nth (fst h0) store [], nth (snd h0) st [])) as [e|ex]; cbn [bind] in *.
    + destruct x as [es|]; [|discriminate SH]. cbn [bind] in *. apply Ok_inj in SH. destruct es as [|e1 [|e2 es]]; try discriminate SH. cbn [map] in SH. injection SH as SH. subst e. destruct flatten; reflexivity.
    + destruct x as [es|]; [discriminate SH|]. cbn [bind] in *. injection SH as SH. subst ex. destruct flatten; reflexivity.
  - assert (EQ : forall (A : Type) (a : A) (b : res A), (match flatten, map (fun h : nat * nat => (nth (fst h) store [], nth (snd h) st [])) (h0 :: h1 :: hds) with true, [_] => Ok a | _, _ => b end) = b) by (intros; destruct flatten; reflexivity).
    rewrite <- SH. destruct x as [es|]; cbn [bind].
    + assert (LE : exists e1 e2 es', es = e1 :: e2 :: es').
      { clear -SH. cbn [bind map create_signatures] in SH. destruct (create_signature P (Es 0%nat) s (Some keys) _); [|discriminate SH]. cbn [bind] in SH. destruct (create_signature P (Es 1%nat) s (Some keys) _); [|discriminate SH]. cbn [bind] in SH.
        destruct (create_signatures P Es 2 s (Some keys) _); [|discriminate SH]. cbn [bind] in SH. apply Ok_inj in SH. destruct es as [|e1 [|e2 es]]; try discriminate SH. eauto. }
      destruct LE as (e1 & e2 & es' & ->). destruct flatten; reflexivity.
    + destruct flatten; reflexivity.
Qed.

(** No dictionary on both sides: what copies give. *)
Theorem json_refs_separate : forall s keys, keys <> [] -> (forall k, In k keys -> plain (k_kid k) = true) -> forall Es (store : list dict) hds flatten,
  (forall h h', In h hds -> In h' hds -> snd h <> fst h') ->
  snd (sign_json_refs P Es s (Some keys) store hds flatten) = sign_json P Es s (Some keys) (Some (map (fun h => (nth (fst h) store [], nth (snd h) store [])) hds)) flatten.
Proof.
  intros s keys NE PK Es store hds flatten SEP. pose proof (json_refs_final s keys NE PK Es store hds flatten) as F. cbv zeta in F. rewrite F. f_equal. f_equal. apply map_ext_in. intros h I. f_equal.
  unfold sign_json_refs. destruct (match s_msg s with VStr m => b64e_enc_dec m | _ => Raise EAttributeError end); [|reflexivity].
  pose proof (refs_other hds Es 0 s (Some keys) store (snd h)) as O. destruct (create_refs P Es 0 s (Some keys) store hds) as [st x]. cbn [fst] in *. apply O.
  intro X. apply in_map_iff in X. destruct X as (h' & X & I'). exact (SEP h h' I I' (eq_sym X)).
Qed.

(** A dictionary that is the protected header of an entry is written as that header is, wherever it is used. *)
Theorem json_refs_both : forall s keys, keys <> [] -> (forall k, In k keys -> plain (k_kid k) = true) -> forall Es (store : list dict) hds flatten t,
  snd (sign_json_refs P Es s (Some keys) store hds flatten) = Ok t -> forall n, (n < length store)%nat -> In n (map fst hds) ->
  nth n (fst (sign_json_refs P Es s (Some keys) store hds flatten)) [] = create_signature_left P s (Some keys) (nth n store []).
Proof.
  intros s keys NE PK Es store hds flatten t H n LN I. unfold sign_json_refs in *. destruct (match s_msg s with VStr m => b64e_enc_dec m | _ => Raise EAttributeError end); [|discriminate H].
  assert (PK' : forall i, plain_kids P i (Some keys)).
  { intros i ks k J I'. destruct keys as [|k0 r]; [congruence|]. cbn [jws_keys] in J. apply Ok_inj in J. subst ks. apply in_map_iff in I'. destruct I' as (x & X & I'). injection X as ->. apply PK. exact I'. }
  pose proof (refs_own s (Some keys) PK' hds Es 0 store store eq_refl (fun r => or_introl eq_refl)) as O. destruct (create_refs P Es 0 s (Some keys) store hds) as [st [es|]]; [|discriminate H]. cbn [fst snd] in *.
  exact (O es eq_refl n LN (or_introl I)).
Qed.
End Refs.
