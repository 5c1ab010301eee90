(** * The header dictionary of the caller after signing (C240-C242)
    [alg_keys], [sign_compact] and [create_signature] (Jws.v) return values only; [xargs = protected or {}] (jws.py:458) and
    [protected_headers = protected or {}] (jws.py:601) are the caller's dictionary itself if that is not empty, and it is
    assigned to. *)
From Coq Require Import ZArith List Bool Lia.
From Verif Require Import Base BaseProofs Prims Inst Extra ExtraProofs Utf8 Codec Json Jwt JwtProofs PvalEq Jwk JwkProofs JwkEx Jws JwsProofs JwsProofs6 JwsEx.
Import ListNotations.
Open Scope Z_scope.

(** The caller's dictionary when alg_keys is left, jws.py:450-475, by return or by an exception: alg is assigned once the keys
    are picked, kid if there is a key with one. *)
Definition alg_keys_left (P : prims) (s : jws) (keys : option (list jwk)) (use : pval) (protected : dict) : dict :=
  match protected with
  | [] => []
  | _ =>
      let '(s, alg) := pick_alg s keys in
      match (ks <- jws_keys P s keys;; pick_keys s ks use alg) with
      | Raise _ => protected
      | Ok ks =>
          let x := dset protected (lit "alg") alg in
          match ks with k :: _ => if truthy (k_kid k) then dset x (lit "kid") (k_kid k) else x | [] => x end
      end
  end.

(** ... when sign_compact is left, jws.py:477-505: typ is assigned if the instance has one. *)
Definition sign_compact_left (P : prims) (s : jws) (keys : option (list jwk)) (protected : dict) : dict :=
  match protected with
  | [] => []
  | _ =>
      let '(s', r) := alg_keys P s keys (VStr (lit "sig")) protected in
      let x := alg_keys_left P s keys (VStr (lit "sig")) protected in
      match r with
      | Raise _ => x
      | Ok _ => match dget (s_dict s') (lit "typ") with Some t => dset x (lit "typ") t | None => x end
      end
  end.

(** [protected_headers.setdefault("alg", alg)] *)
Definition with_alg (d : dict) (alg : pval) : dict := if dmem d (lit "alg") then d else dset d (lit "alg") alg.
(** ... when create_signature is left, jws.py:600-616: alg is added first if it is missing ([self.alg] is evaluated before). *)
Definition create_signature_left (P : prims) (s : jws) (keys : option (list jwk)) (protected : dict) : dict :=
  match protected with
  | [] => []
  | _ =>
      match dget (s_dict s) (lit "alg") with
      | None => protected
      | Some alg =>
          let ph := with_alg protected alg in
          if dmem ph (lit "self") || dmem ph (lit "msg") then ph
          else match jws_init P (s_msg s) (ddel ph (lit "with_digest")) None with
               | Raise _ => ph
               | Ok inner => sign_compact_left P inner keys ph
               end
      end
  end.

(** [l[i] = v] *)
Fixpoint put {A} (l : list A) (i : nat) (v : A) : list A :=
  match l, i with
  | [], _ => []
  | _ :: r, O => v :: r
  | x :: r, S i => x :: put r i v
  end.

(** The loop of sign_json, jws.py:627-629, when the dictionaries of [headers] are the objects [store], referred to by number:
    what it leaves in them and what it returns. *)
Fixpoint create_signatures_on (P : prims) (Es : nat -> entropy) (i : nat) (s : jws) (keys : option (list jwk)) (store : list dict) (hds : list (nat * dict)) : list dict * res (list pval) :=
  match hds with
  | [] => (store, Ok [])
  | (r, u) :: t =>
      let p := nth r store [] in
      let store := put store r (create_signature_left P s keys p) in
      match create_signature P (Es i) s keys (p, u) with
      | Raise e => (store, Raise e)
      | Ok e => let (store, x) := create_signatures_on P Es (S i) s keys store t in (store, es <- x;; Ok (VDict e :: es))
      end
  end.

(** ** What is left *)
Lemma dset_id : forall A (d : list (ustr * A)) n v, dget d n = Some v -> dset d n v = d.
Proof.
  induction d as [|[m w] d IH]; intros n v G; cbn [dget dset] in *; [discriminate G|]. destruct (zs_eqb m n) eqn:E.
  - injection G as ->. reflexivity.
  - rewrite IH by exact G. reflexivity.
Qed.
Lemma filter_first : forall A (f g : A -> bool) l k r, filter f l = k :: r -> g k = true -> (forall x, g x = true -> f x = true) -> exists r', filter g l = k :: r'.
Proof.
  induction l as [|x l IH]; intros k r F G S; cbn [filter] in *; [discriminate F|]. destruct (f x) eqn:E.
  - injection F as -> _. rewrite G. eexists. reflexivity.
  - destruct (g x) eqn:H; [rewrite (S x H) in E; discriminate E|]. exact (IH k r F G S).
Qed.

Ltac ne := let X := fresh in intro X; discriminate X.
Definition written : list ustr := [lit "alg"; lit "kid"; lit "typ"].
Lemma written_ne : forall n, ~ In n written -> lit "alg" <> n /\ lit "kid" <> n /\ lit "typ" <> n.
Proof. intros n N. repeat split; intros <-; apply N; cbn; auto. Qed.

Section Left.
Variable P : prims.
Lemma alg_keys_left_other : forall s keys use p n, ~ In n written -> dget (alg_keys_left P s keys use p) n = dget p n.
Proof.
  intros s keys use p n N. apply written_ne in N. destruct N as (N1 & N2 & N3). unfold alg_keys_left. destruct p as [|kv p]; [reflexivity|]. destruct (pick_alg s keys) as [s' alg].
  destruct (ks <- jws_keys P s' keys;; pick_keys s' ks use alg) as [[|k ks]|e]; [|destruct (truthy (k_kid k))|]; rewrite ?dget_dset_other by assumption; reflexivity.
Qed.
Lemma sign_left_other : forall s keys p n, ~ In n written -> dget (sign_compact_left P s keys p) n = dget p n.
Proof.
  intros s keys p n N. unfold sign_compact_left. destruct p as [|kv p]; [reflexivity|]. destruct (alg_keys P s keys (VStr (lit "sig")) (kv :: p)) as [s' r].
  destruct r as [x|e]; [destruct (dget (s_dict s') (lit "typ"))|]; rewrite ?dget_dset_other by (apply written_ne; exact N); apply alg_keys_left_other; exact N.
Qed.
Lemma create_left_other : forall s keys p n, ~ In n written -> dget (create_signature_left P s keys p) n = dget p n.
Proof.
  intros s keys p n N. unfold create_signature_left. destruct p as [|kv p]; [reflexivity|]. destruct (dget (s_dict s) (lit "alg")) as [a|]; [|reflexivity]. cbv zeta.
  set (ph := with_alg (kv :: p) a). assert (E : dget ph n = dget (kv :: p) n).
  { unfold ph, with_alg. destruct (dmem (kv :: p) (lit "alg")); [reflexivity|]. apply dget_dset_other. apply written_ne. exact N. }
  destruct (dmem ph (lit "self") || dmem ph (lit "msg")); [exact E|]. destruct (jws_init P (s_msg s) (ddel ph (lit "with_digest")) None); [|exact E]. rewrite sign_left_other by exact N. exact E.
Qed.

(** What sign_compact reads of an instance made of the names in [h]. *)
Record made (i : jws) (msg : pval) (jk : option jwkval) (h : dict) : Prop := {
  m_msg : s_msg i = msg; m_jwk : s_jwk i = jk; m_jwt : s_jwt i = None; m_alg : dmem h (lit "alg") = true;
  m_dict : forall n, In n [lit "alg"; lit "kid"; lit "typ"; lit "jku"; lit "x5u"] -> dget (s_dict i) n = dget h n }.
Lemma init_made : forall msg h i, dmem h (lit "alg") = true -> jws_init P msg (ddel h (lit "with_digest")) None = Ok i -> made i msg (s_jwk i) h.
Proof.
  intros msg h i A H. unfold jws_init in H. set (kw := ddel h (lit "with_digest")) in *.
  assert (KA : forall n, n <> lit "with_digest" -> dget kw n = dget h n) by (intros n N; apply ddel_other; apply not_eq_sym; exact N).
  assert (KN : kw <> []).
  { intro X. assert (Y : dget kw (lit "alg") = None) by (rewrite X; reflexivity). rewrite KA in Y by ne. unfold dmem in A. rewrite Y in A. discriminate A. }
  match type of H with bind ?m _ = _ => destruct m as [j|e]; [|discriminate H] end. cbn [bind] in H. apply Ok_inj in H. subst i.
  cbn [s_jwk]. split; cbn [s_msg s_jwk s_jwt s_dict]; try reflexivity; [exact A|]. intros n I.
  clearbody kw. transitivity (dget (init_dict kw plain_args []) n); [destruct kw; [congruence|reflexivity]|].
  unfold dmem in A. cbn [In] in I.
  assert (G : n <> lit "x5c" /\ n <> lit "crit" /\ n <> lit "with_digest" /\ existsb (zs_eqb n) plain_args = true) by (repeat destruct I as [<-|I]; try destruct I; (split; [ne|]; split; [ne|]; split; [ne|reflexivity])).
  destruct G as (G1 & G2 & G3 & G4). rewrite init_dict_get by assumption. rewrite G4, KA by exact G3. destruct (dget h n) eqn:D; [reflexivity|].
  destruct (zs_eqb n (lit "alg")) eqn:E; [|reflexivity]. apply zs_eqb_eq in E. subst n. rewrite D in A. discriminate A.
Qed.
Lemma init_same : forall msg h h' i, dget h' (lit "jwk") = dget h (lit "jwk") -> jws_init P msg (ddel h (lit "with_digest")) None = Ok i ->
  exists i', jws_init P msg (ddel h' (lit "with_digest")) None = Ok i' /\ s_jwk i' = s_jwk i.
Proof.
  intros msg h h' i E H. unfold jws_init in *. rewrite ddel_other in * by ne. rewrite E.
  match type of H with bind ?m _ = _ => destruct m as [j|e]; [|discriminate H] end. cbn [bind] in *. apply Ok_inj in H. subst i. eexists. split; [reflexivity|]. reflexivity.
Qed.

Lemma made_alg : forall i msg jk h keys, made i msg jk h -> exists i1 a, dget h (lit "alg") <> None /\ pick_alg i keys = (i1, a) /\ truthy a = true /\ made i1 msg jk (dset h (lit "alg") a) /\
  (forall b, dget h (lit "alg") = Some b -> truthy b = true -> a = b /\ i1 = i).
Proof.
  intros i msg jk h keys [M1 M2 M3 M4 M5]. unfold dmem in M4. unfold pick_alg. rewrite (M5 (lit "alg")) by (cbn; tauto). destruct (dget h (lit "alg")) as [b|] eqn:D; [|discriminate M4].
  destruct (truthy b) eqn:T.
  - exists i, b. split; [ne|]. split; [reflexivity|]. split; [exact T|]. split; [|intros c C _; injection C as <-; auto]. rewrite dset_id by exact D. split; try assumption. unfold dmem. rewrite D. reflexivity.
  - eexists _, _. split; [ne|]. split; [reflexivity|]. split; [reflexivity|]. split; [|intros c C T'; injection C as <-; rewrite T in T'; discriminate T'].
    split; cbn [set_alg s_msg s_jwk s_jwt s_dict]; try assumption; [unfold dmem; rewrite dget_dset_same; reflexivity|].
    intros n I. destruct (zs_eqb (lit "alg") n) eqn:E; [apply zs_eqb_eq in E; subst n; rewrite !dget_dset_same; reflexivity|apply zs_eqb_neq in E; rewrite !dget_dset_other by exact E; apply M5; exact I].
Qed.
Lemma made_kid : forall i msg jk h, made i msg jk h -> kid_in_force i = Ok (match dget h (lit "kid") with Some v => v | None => VNone end).
Proof. intros i msg jk h M. unfold kid_in_force. rewrite (m_dict _ _ _ _ M) by (cbn; tauto). rewrite (m_jwt _ _ _ _ M). destruct (dget h (lit "kid")); reflexivity. Qed.
Lemma made_keys : forall i i' msg jk h h' keys, made i msg jk h -> made i' msg jk h' -> (forall n, ~ In n written -> dget h' n = dget h n) -> jws_keys P i' keys = jws_keys P i keys.
Proof.
  intros i i' msg jk h h' keys M M' S.
  assert (U : dget h' (lit "jku") = dget h (lit "jku")) by (apply S; cbn; intros [X|[X|[X|[]]]]; discriminate X).
  assert (V : dget h' (lit "x5u") = dget h (lit "x5u")) by (apply S; cbn; intros [X|[X|[X|[]]]]; discriminate X).
  unfold jws_keys, jws_get_keys, dmem. rewrite (m_dict _ _ _ _ M (lit "jku")), (m_dict _ _ _ _ M' (lit "jku")), (m_dict _ _ _ _ M (lit "x5u")), (m_dict _ _ _ _ M' (lit "x5u")) by (cbn; tauto). rewrite U, V, (m_jwk _ _ _ _ M), (m_jwk _ _ _ _ M'). reflexivity.
Qed.

(** ** Signing again with the dictionary left behind *)
(** The keys signing chooses from have kids that are equal to themselves (no NaN inside). *)
Definition plain_kids (i : jws) (keys : option (list jwk)) : Prop := forall ks k, jws_keys P i keys = Ok ks -> In (Some k) ks -> plain (k_kid k) = true.
Lemma real_in : forall l ks k, real_keys l = Ok ks -> In k ks -> In (Some k) l.
Proof.
  induction l as [|[x|] l IH]; intros ks k R I; cbn [real_keys] in R; [apply Ok_inj in R; subst ks; destruct I| |discriminate R].
  destruct (real_keys l) as [r|]; [|discriminate R]. cbn [bind] in R. apply Ok_inj in R. subst ks. destruct I as [->|I]; [left; reflexivity|right; apply (IH r); auto].
Qed.
Definition kid_of (h : dict) : pval := match dget h (lit "kid") with Some v => v | None => VNone end.
Lemma pick_in : forall i msg jk h l use a k r, made i msg jk h -> pick_keys i l use a = Ok (k :: r) -> In (Some k) l /\ (truthy (kid_of h) = true -> pval_eqb (kid_of h) (k_kid k) = true).
Proof.
  intros i msg jk h l use a k r M H. unfold pick_keys in H. destruct (if truthy a then Ok a else _) as [a'|]; [|discriminate H]. cbn [bind] in H. destruct (pval_eqb a' (VStr (lit "none"))); [discriminate H|].
  destruct (alg2keytype a') as [[kty|]|]; try discriminate H. cbn [bind] in H. destruct (real_keys l) as [ks|] eqn:R; [|discriminate H]. cbn [bind] in H. rewrite (made_kid _ _ _ _ M) in H. cbn [bind] in H. fold (kid_of h) in H. apply Ok_inj in H.
  assert (I : In k (filter (key_fits (kid_of h) use a') (filter (kty_fits kty) ks))) by (rewrite H; left; reflexivity). apply filter_In in I. destruct I as [I F]. apply filter_In in I. destruct I as [I _]. split; [exact (real_in _ _ _ R I)|].
  intro T. unfold key_fits in F. rewrite T in F. cbn [andb] in F. apply andb_true_iff in F. destruct F as [F _]. apply andb_true_iff in F. destruct F as [F _]. rewrite negb_involutive in F. exact F.
Qed.
(** Keys picked for a kid are picked first for the kid of the first of them. *)
Lemma pick_again : forall i i' msg jk h h' l use a k r, made i msg jk h -> made i' msg jk h' -> truthy a = true -> pick_keys i l use a = Ok (k :: r) -> plain (k_kid k) = true -> truthy (k_kid k) = true -> kid_of h' = k_kid k ->
  exists r', pick_keys i' l use a = Ok (k :: r').
Proof.
  intros i i' msg jk h h' l use a k r M M' TA H PL TK E. pose proof (proj2 (pick_in _ _ _ _ _ _ _ _ _ M H)) as FK. unfold pick_keys in *. rewrite TA in *. cbn [bind] in *. destruct (pval_eqb a (VStr (lit "none"))); [discriminate H|].
  destruct (alg2keytype a) as [[kty|]|]; try discriminate H. cbn [bind] in *. destruct (real_keys l) as [ks|] eqn:R; [|discriminate H]. cbn [bind] in *. rewrite (made_kid _ _ _ _ M) in H. rewrite (made_kid _ _ _ _ M'). cbn [bind] in *. fold (kid_of h) in H. fold (kid_of h'). rewrite E. apply Ok_inj in H.
  assert (I : In k (filter (key_fits (kid_of h) use a) (filter (kty_fits kty) ks))) by (rewrite H; left; reflexivity). apply filter_In in I. destruct I as [_ F].
  destruct (filter_first _ (key_fits (kid_of h) use a) (key_fits (k_kid k) use a) _ k r H) as (r' & R').
  - unfold key_fits in *. rewrite pval_eqb_refl by exact PL. rewrite andb_false_r. apply andb_true_iff in F. destruct F as [F F3]. apply andb_true_iff in F. destruct F as [_ F2]. rewrite F2, F3. reflexivity.
  - intros x G. unfold key_fits in *. apply andb_true_iff in G. destruct G as [G G3]. apply andb_true_iff in G. destruct G as [G1 G2]. rewrite G2, G3, !andb_true_r. rewrite TK in G1. cbn [andb] in G1. rewrite negb_involutive in G1.
    destruct (truthy (kid_of h)) eqn:T; [|reflexivity]. rewrite (pval_eqb_trans _ _ _ (FK eq_refl) G1). reflexivity.
  - rewrite R'. eexists. reflexivity.
Qed.
Lemma pick_same : forall i i' msg jk h h' l use a, made i msg jk h -> made i' msg jk h' -> truthy a = true -> kid_of h' = kid_of h -> pick_keys i' l use a = pick_keys i l use a.
Proof.
  intros i i' msg jk h h' l use a M M' TA E. unfold pick_keys. rewrite TA. cbn [bind]. destruct (pval_eqb a (VStr (lit "none"))); [reflexivity|].
  destruct (alg2keytype a) as [[kty|]|]; try reflexivity. cbn [bind]. destruct (real_keys l) as [ks|]; [|reflexivity]. cbn [bind]. rewrite (made_kid _ _ _ _ M), (made_kid _ _ _ _ M'). fold (kid_of h). fold (kid_of h'). rewrite E. reflexivity.
Qed.

(** The rest of sign_compact after alg_keys. *)
Definition after_keys (E : entropy) (msg : pval) (key : option jwk) (xargs : dict) (alg : pval) : res ustr :=
   if dmem xargs (lit "self") then Raise ETypeError
   else
     j <- jwt_init xargs;;
     if pval_eqb alg (VStr (lit "none")) then ' (t, _) <- pack j [msg; VStr []] VNone;; Ok t
     else
       match alg with
       | VStr a =>
           match dget SIGNERS a with
           | None => Raise EUnknownAlgorithm
           | Some g =>
               ' (input, _) <- pack j [msg] VNone;;
               i <- utf8_encode input;;
               match key with
               | None => Raise EAttributeError
               | Some k => m <- get_key k true;; sg <- signer_sign P g E i m;; Ok (input ++ 46 :: b64e sg)
               end
           end
       | _ => Raise EUnknownAlgorithm
       end.
Definition with_typ (i : jws) (x : dict) : dict := match dget (s_dict i) (lit "typ") with Some t => dset x (lit "typ") t | None => x end.
Lemma sign_compact_eq : forall E s keys p, sign_compact P E s keys p =
  let '(s1, r) := alg_keys P s keys (VStr (lit "sig")) p in (s1, ' (key, xargs, alg) <- r;; after_keys E (s_msg s1) key (with_typ s1 xargs) alg).
Proof. reflexivity. Qed.

(** What alg_keys found, of an instance made of [h]. *)
Lemma found : forall i msg jk h keys, made i msg jk h -> exists i1 a, pick_alg i keys = (i1, a) /\ truthy a = true /\ made i1 msg jk (dset h (lit "alg") a).
Proof. intros i msg jk h keys M. destruct (made_alg i msg jk h keys M) as (i1 & a & _ & H1 & H2 & H3 & _). eauto. Qed.

Definition picked (i1 : jws) (keys : option (list jwk)) (a : pval) : res (list jwk) := ks <- jws_keys P i1 keys;; pick_keys i1 ks (VStr (lit "sig")) a.
Definition named (h : dict) (a : pval) (ks : list jwk) : dict :=
  let x := dset h (lit "alg") a in match ks with k :: _ => if truthy (k_kid k) then dset x (lit "kid") (k_kid k) else x | [] => x end.
Definition chosen (a : pval) (ks : list jwk) : res (option jwk) :=
  match ks with k :: _ => Ok (Some k) | [] => l <- py_lower a;; if pval_eqb l (VStr (lit "none")) then Ok None else Raise ENoSuitableSigningKeys end.
Lemma alg_keys_eq : forall i keys h i1 a, pick_alg i keys = (i1, a) ->
  alg_keys P i keys (VStr (lit "sig")) h = (i1, ks <- picked i1 keys a;; c <- chosen a ks;; Ok (c, named h a ks, a)).
Proof.
  intros i keys h i1 a E. unfold alg_keys, picked. rewrite E. f_equal. destruct (jws_keys P i1 keys) as [l|]; [|reflexivity]. cbn [bind]. destruct (pick_keys i1 l (VStr (lit "sig")) a) as [[|k ks]|]; [| |reflexivity]; cbn [bind chosen named].
  - destruct (py_lower a) as [b|]; [|reflexivity]. cbn [bind]. destruct (pval_eqb b (VStr (lit "none"))); reflexivity.
  - destruct (truthy (k_kid k)); reflexivity.
Qed.
Lemma left_eq : forall i keys h i1 a, pick_alg i keys = (i1, a) -> h <> [] ->
  alg_keys_left P i keys (VStr (lit "sig")) h = match picked i1 keys a with Ok ks => named h a ks | Raise _ => h end.
Proof. intros i keys h i1 a E N. unfold alg_keys_left. destruct h as [|kv h]; [congruence|]. rewrite E. fold (picked i1 keys a). destruct (picked i1 keys a) as [[|k ks]|]; reflexivity. Qed.

Lemma sign_again : forall E i i' msg jk h h' keys t, h <> [] -> made i msg jk h -> h' = sign_compact_left P i keys h -> (dmem h' (lit "alg") = true -> made i' msg jk h') -> plain_kids i keys ->
  snd (sign_compact P E i keys h) = Ok t -> (forall E', snd (sign_compact P E' i' keys h') = snd (sign_compact P E' i keys h)) /\ sign_compact_left P i' keys h' = h'.
Proof.
  intros E i i' msg jk h h' keys t NE M EQ M' PK H.
  destruct (found i msg jk h keys M) as (i1 & a & PA & TA & M1).
  rewrite sign_compact_eq, (alg_keys_eq _ _ _ _ _ PA) in H. cbn [snd] in H. destruct (picked i1 keys a) as [ks|] eqn:PI; [|discriminate H]. cbn [bind] in H. destruct (chosen a ks) as [c|] eqn:CH; [|discriminate H]. cbn [bind] in H.
  assert (T1 : dget (s_dict i1) (lit "typ") = dget h (lit "typ")) by (rewrite (m_dict _ _ _ _ M1) by (cbn; tauto); apply dget_dset_other; ne).
  assert (X : h' = with_typ i1 (named h a ks)).
  { rewrite EQ. unfold sign_compact_left. destruct h as [|kv h]; [congruence|]. rewrite (alg_keys_eq _ _ _ _ _ PA), PI. cbn [bind]. rewrite CH. cbn [bind]. rewrite (left_eq _ _ _ _ _ PA NE), PI. reflexivity. }
  assert (GA : dget h' (lit "alg") = Some a).
  { rewrite X. unfold with_typ, named. destruct ks as [|k ks]; [|destruct (truthy (k_kid k))]; destruct (dget (s_dict i1) (lit "typ")); repeat (rewrite dget_dset_other by ne); apply dget_dset_same. }
  assert (GT : dget h' (lit "typ") = dget h (lit "typ")).
  { rewrite X. unfold with_typ. rewrite T1. destruct (dget h (lit "typ")) as [ty|] eqn:TY; [apply dget_dset_same|].
    unfold named. destruct ks as [|k ks]; [|destruct (truthy (k_kid k))]; repeat (rewrite dget_dset_other by ne); exact TY. }
  assert (GK : match ks with k :: _ => if truthy (k_kid k) then dget h' (lit "kid") = Some (k_kid k) else dget h' (lit "kid") = dget h (lit "kid") | [] => dget h' (lit "kid") = dget h (lit "kid") end).
  { rewrite X. unfold with_typ, named. destruct ks as [|k ks]; [|destruct (truthy (k_kid k)) eqn:TK]; destruct (dget (s_dict i1) (lit "typ")); repeat (rewrite dget_dset_other by ne); try apply dget_dset_same; reflexivity. }
  assert (GO : forall n, ~ In n written -> dget h' n = dget h n) by (intros n N; rewrite EQ; apply sign_left_other; exact N).
  assert (MM : made i' msg jk h') by (apply M'; unfold dmem; rewrite GA; reflexivity).
  assert (PA' : pick_alg i' keys = (i', a)).
  { destruct (made_alg i' msg jk h' keys MM) as (i2 & a2 & _ & E1 & _ & _ & E2). destruct (E2 a GA TA) as [-> ->]. exact E1. }
  assert (NE' : h' <> []) by (intro Y; rewrite Y in GA; discriminate GA).
  assert (K0 : kid_of (dset h (lit "alg") a) = kid_of h) by (unfold kid_of; rewrite dget_dset_other by ne; reflexivity).
  assert (JK : jws_keys P i' keys = jws_keys P i1 keys).
  { apply (made_keys i1 i' msg jk _ _ keys M1 MM). intros n N. rewrite GO by exact N. symmetry. apply dget_dset_other. apply written_ne. exact N. }
  assert (JK1 : jws_keys P i1 keys = jws_keys P i keys).
  { apply (made_keys i i1 msg jk _ _ keys M M1). intros n N. apply dget_dset_other. apply written_ne. exact N. }
  assert (PI' : exists ks', picked i' keys a = Ok ks' /\ chosen a ks' = Ok c /\ named h' a ks' = match ks with k :: _ => if truthy (k_kid k) then dset h' (lit "kid") (k_kid k) else h' | [] => h' end).
  { unfold picked in *. rewrite JK. destruct (jws_keys P i1 keys) as [l|] eqn:L; [|discriminate PI]. cbn [bind] in *. destruct ks as [|k ks].
    - exists []. split; [|split; [exact CH|]].
      + rewrite <- PI. apply (pick_same i1 i' msg jk (dset h (lit "alg") a) h'); try assumption. rewrite K0. unfold kid_of. rewrite GK. reflexivity.
      + unfold named. apply dset_id. exact GA.
    - destruct (truthy (k_kid k)) eqn:TK.
      + destruct (pick_again i1 i' msg jk (dset h (lit "alg") a) h' l (VStr (lit "sig")) a k ks) as (ks' & R); try assumption.
        * apply (PK l k); [rewrite <- JK1; reflexivity|]. exact (proj1 (pick_in _ _ _ _ _ _ _ _ _ M1 PI)).
        * unfold kid_of. rewrite GK. reflexivity.
        * exists (k :: ks'). split; [exact R|]. split; [exact CH|]. unfold named. rewrite TK, (dset_id _ h' _ _ GA). reflexivity.
      + exists (k :: ks). split; [|split; [exact CH|]].
        * rewrite <- PI. apply (pick_same i1 i' msg jk (dset h (lit "alg") a) h'); try assumption. rewrite K0. unfold kid_of. rewrite GK. reflexivity.
        * unfold named. rewrite TK. apply dset_id. exact GA. }
  destruct PI' as (ks' & PI' & CH' & NA').
  assert (NA : named h' a ks' = h').
  { rewrite NA'. destruct ks as [|k ks]; [reflexivity|]. destruct (truthy (k_kid k)); [apply dset_id; exact GK|reflexivity]. }
  assert (WT : with_typ i' h' = h').
  { unfold with_typ. rewrite (m_dict _ _ _ _ MM) by (cbn; tauto). destruct (dget h' (lit "typ")) eqn:TY; [apply dset_id; exact TY|reflexivity]. }
  split.
  - intro E'. rewrite !sign_compact_eq, (alg_keys_eq _ _ _ _ _ PA'), (alg_keys_eq _ _ _ _ _ PA). cbn [snd]. rewrite PI', PI. cbn [bind]. rewrite CH', CH. cbn [bind]. rewrite NA, WT, (m_msg _ _ _ _ MM), X, <- (m_msg _ _ _ _ M1). reflexivity.
  - unfold sign_compact_left. destruct h' as [|kv h']; [congruence|]. rewrite (alg_keys_eq _ _ _ _ _ PA'), PI'. cbn [bind]. rewrite CH'. cbn [bind]. rewrite (left_eq _ _ _ _ _ PA' NE'), PI'. rewrite NA. exact WT.
Qed.

Lemma with_alg_mem : forall d a, dmem (with_alg d a) (lit "alg") = true.
Proof. intros d a. unfold with_alg. destruct (dmem d (lit "alg")) eqn:E; [exact E|]. unfold dmem. rewrite dget_dset_same. reflexivity. Qed.
Lemma with_alg_ne : forall d a, with_alg d a <> [].
Proof. intros d a E. pose proof (with_alg_mem d a) as M. rewrite E in M. discriminate M. Qed.
Lemma with_alg_id : forall d a, dmem d (lit "alg") = true -> with_alg d a = d.
Proof. intros d a E. unfold with_alg. rewrite E. reflexivity. Qed.

Definition entry (u : dict) (t : ustr) : res dict :=
  match split 46 t with
  | [h; _; sg] => Ok ([(lit "signature", VStr sg)] ++ (match u with [] => [] | _ => [(lit "header", VDict u)] end) ++ (match h with [] => [] | _ => [(lit "protected", VStr h)] end))
  | _ => Raise EValueError
  end.
Lemma create_eq : forall E s keys p u a, p <> [] -> dget (s_dict s) (lit "alg") = Some a -> create_signature P E s keys (p, u) =
  (let ph := with_alg p a in if dmem ph (lit "self") || dmem ph (lit "msg") then Raise ETypeError
   else inner <- jws_init P (s_msg s) (ddel ph (lit "with_digest")) None;; t <- snd (sign_compact P E inner keys ph);; entry u t).
Proof. intros E s keys p u a N A. unfold create_signature. rewrite A. cbn [bind]. destruct p as [|kv p]; [congruence|]. reflexivity. Qed.

Lemma create_again : forall s keys p, (forall i, plain_kids i keys) -> forall E u e, create_signature P E s keys (p, u) = Ok e ->
  (forall E' u', create_signature P E' s keys (create_signature_left P s keys p, u') = create_signature P E' s keys (p, u')) /\
  create_signature_left P s keys (create_signature_left P s keys p) = create_signature_left P s keys p.
Proof.
  intros s keys p PK E u e H. destruct p as [|kv p0]; [split; reflexivity|]. set (p := kv :: p0) in *. assert (NE : p <> []) by ne. clearbody p. clear kv p0.
  destruct (dget (s_dict s) (lit "alg")) as [a|] eqn:A; [|unfold create_signature in H; rewrite A in H; discriminate H].
  rewrite (create_eq _ _ _ _ _ _ NE A) in H. cbv zeta in H. destruct (dmem (with_alg p a) (lit "self") || dmem (with_alg p a) (lit "msg")) eqn:SM; [discriminate H|].
  destruct (jws_init P (s_msg s) (ddel (with_alg p a) (lit "with_digest")) None) as [i|] eqn:I; [|discriminate H]. cbn [bind] in H. destruct (snd (sign_compact P E i keys (with_alg p a))) as [t|] eqn:SG; [|discriminate H].
  assert (L : create_signature_left P s keys p = sign_compact_left P i keys (with_alg p a)) by (unfold create_signature_left; destruct p; [congruence|]; rewrite A, SM, I; reflexivity).
  pose proof (init_made _ _ _ (with_alg_mem p a) I) as M.
  rewrite L. set (h' := sign_compact_left P i keys (with_alg p a)) in *.
  assert (GO : forall n, ~ In n written -> dget h' n = dget (with_alg p a) n) by (intros n N; apply sign_left_other; exact N).
  destruct (init_same (s_msg s) (with_alg p a) h' i) as (i' & I' & J'); [apply GO; cbn; intros [X|[X|[X|[]]]]; discriminate X|exact I|].
  assert (MI : dmem h' (lit "alg") = true -> made i' (s_msg s) (s_jwk i) h') by (intro D; rewrite <- J'; apply init_made; assumption).
  destruct (sign_again E i i' (s_msg s) (s_jwk i) (with_alg p a) h' keys t (with_alg_ne p a) M eq_refl MI (PK i) SG) as [S1 S2].
  assert (D : dmem h' (lit "alg") = true).
  { unfold h'. clear -M SG. rewrite sign_compact_eq in SG. destruct (found i _ _ _ keys M) as (i1 & b & PA & _ & M1). rewrite (alg_keys_eq _ _ _ _ _ PA) in SG. cbn [snd] in SG. destruct (picked i1 keys b) as [ks|] eqn:PI; [|discriminate SG]. cbn [bind] in SG.
    destruct (chosen b ks) as [c|] eqn:CH; [|discriminate SG]. unfold sign_compact_left. pose proof (with_alg_ne p a) as NE. destruct (with_alg p a) as [|kv h]; [congruence|]. rewrite (alg_keys_eq _ _ _ _ _ PA), PI. cbn [bind]. rewrite CH. cbn [bind]. rewrite (left_eq _ _ _ _ _ PA NE), PI.
    unfold dmem, named. destruct ks as [|k ks]; [|destruct (truthy (k_kid k))]; destruct (dget (s_dict i1) (lit "typ")); repeat (rewrite dget_dset_other by ne); rewrite dget_dset_same; reflexivity. }
  assert (NE' : h' <> []) by (intro Y; rewrite Y in D; discriminate D).
  assert (SM' : dmem h' (lit "self") || dmem h' (lit "msg") = false).
  { unfold dmem in *. rewrite (GO (lit "self")), (GO (lit "msg")) by (cbn; intros [X|[X|[X|[]]]]; discriminate X). exact SM. }
  split.
  - intros E' u'. rewrite (create_eq _ _ _ _ _ _ NE' A), (create_eq _ _ _ _ _ _ NE A). cbv zeta. rewrite (with_alg_id h' a D), SM', SM, I', I. cbn [bind]. rewrite S1. reflexivity.
  - unfold create_signature_left at 1. destruct h' as [|kv h0] eqn:HH; [congruence|]. rewrite A, (with_alg_id _ a D), SM', I'. exact S2.
Qed.

(** ** Dictionaries shared between signatures *)
Lemma nth_put : forall A (l : list A) i j v d, nth j (put l i v) d = if Nat.eqb i j && Nat.ltb j (length l) then v else nth j l d.
Proof.
  induction l as [|x l IH]; intros i j v d; cbn [put]; [rewrite andb_false_r; reflexivity|]. destruct i as [|i], j as [|j]; try reflexivity. cbn [nth]. rewrite IH. reflexivity.
Qed.
Theorem shared_harmless : forall s keys, (forall i, plain_kids i keys) -> forall hds Es i (store0 store : list dict),
  (forall r, nth r store [] = nth r store0 [] \/ (nth r store [] = create_signature_left P s keys (nth r store0 []) /\ exists E u e, create_signature P E s keys (nth r store0 [], u) = Ok e)) ->
  snd (create_signatures_on P Es i s keys store hds) = create_signatures P Es i s keys (map (fun h => (nth (fst h) store0 [], snd h)) hds).
Proof.
  intros s keys PK. induction hds as [|[r u] hds IH]; intros Es i store0 store INV; [reflexivity|]. cbn [create_signatures_on map create_signatures fst snd]. cbv zeta.
  assert (EQ : create_signature P (Es i) s keys (nth r store [], u) = create_signature P (Es i) s keys (nth r store0 [], u)).
  { destruct (INV r) as [-> |(-> & E & u0 & e & H)]; [reflexivity|]. apply (create_again s keys _ PK _ _ _ H). }
  rewrite EQ. destruct (create_signature P (Es i) s keys (nth r store0 [], u)) as [e|] eqn:CE; [|reflexivity]. cbn [bind].
  specialize (IH Es (S i) store0 (put store r (create_signature_left P s keys (nth r store [])))).
  destruct (create_signatures_on P Es (S i) s keys (put store r (create_signature_left P s keys (nth r store []))) hds) as [st x]. cbn [snd] in *. rewrite IH; [reflexivity|].
  intro q. rewrite nth_put. destruct (Nat.eqb r q && Nat.ltb q (length store)) eqn:Q; [|apply INV]. apply andb_true_iff in Q. destruct Q as [Q _]. apply Nat.eqb_eq in Q. subst q. right. split; [|eauto].
  destruct (INV r) as [-> |(-> & E & u0 & e0 & H)]; [reflexivity|]. apply (create_again s keys _ PK _ _ _ H).
Qed.
(** Distinct dictionaries need no condition on kids. *)
Theorem distinct_same : forall s keys hds Es i (store0 store : list dict), NoDup (map fst hds) -> (forall r, In r (map fst hds) -> nth r store [] = nth r store0 []) ->
  snd (create_signatures_on P Es i s keys store hds) = create_signatures P Es i s keys (map (fun h => (nth (fst h) store0 [], snd h)) hds).
Proof.
  intros s keys. induction hds as [|[r u] hds IH]; intros Es i store0 store ND INV; [reflexivity|]. cbn [create_signatures_on map create_signatures fst snd]. cbv zeta. rewrite (INV r) by (left; reflexivity).
  destruct (create_signature P (Es i) s keys (nth r store0 [], u)) as [e|]; [|reflexivity]. cbn [bind]. inversion ND as [|? ? N1 N2]; subst.
  specialize (IH Es (S i) store0 (put store r (create_signature_left P s keys (nth r store0 []))) N2).
  destruct (create_signatures_on P Es (S i) s keys (put store r (create_signature_left P s keys (nth r store0 []))) hds) as [st x]. cbn [snd] in *. rewrite IH; [reflexivity|].
  intros q I. rewrite nth_put. destruct (Nat.eqb r q && Nat.ltb q (length store)) eqn:Q; [|apply INV; right; exact I]. apply andb_true_iff in Q. destruct Q as [Q _]. apply Nat.eqb_eq in Q. subst q. contradiction.
Qed.
End Left.
