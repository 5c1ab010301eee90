(** * The instance after verify_json, also when that raises *)
From Coq Require Import ZArith List Bool Lia.
From Verif Require Import Base BaseProofs Prims Inst Extra ExtraProofs Utf8 Codec Json Jwt JwtProofs Jwk JwkProofs JwkEx Jws JwsProofs JwsEx.
Import ListNotations.
Open Scope Z_scope.

Definition with_key (s : jws) (k : option jwk) : jws := {| s_msg := s_msg s; s_dict := s_dict s; s_jwk := s_jwk s; s_jwt := s_jwt s; s_key := k |}.

(** __init__ called on an existing instance, jws.py:271-297 and 668: the attribute key is not touched; if the value of jwk cannot
    be read, msg, jwt and the two names before jwk (alg, jku) have been assigned. *)
Definition init_on (P : prims) (s : jws) (kw : dict) : jws * res unit :=
  if dmem kw (lit "self") then (s, Raise ETypeError)
  else
    match init_from P kw with
    | Ok n => (with_key n (s_key s), Ok tt)
    | Raise e => ({| s_msg := kwarg kw (lit "msg") VNone; s_dict := init_dict kw [lit "alg"; lit "jku"] []; s_jwk := None; s_jwt := None; s_key := s_key s |}, Raise e)
    end.

(** The loop of verify_json, jws.py:657-674, with the instance as it is when an exception leaves it. *)
Fixpoint verify_signs_on (P : prims) (s : jws) (pl : pval) (signs : list pval) (keys : option (list jwk)) (allow_none : bool) (sigalg claim : pval) : jws * res pval :=
  match signs with
  | [] => (s, Ok claim)
  | sg :: r =>
      match json_token pl sg with
      | Raise e => (s, Raise e)
      | Ok (tok, hs) =>
          match init_on P s hs with
          | (s1, Raise e) => (s1, Raise e)
          | (s1, Ok _) =>
              match verify_compact P s1 (VBytes tok) keys allow_none sigalg with
              | (s2, Raise e) => (s2, Raise e)
              | (s2, Ok (m, _)) =>
                  match claim with
                  | VNone => verify_signs_on P s2 pl r keys allow_none sigalg m
                  | _ => if pval_eqb claim m then verify_signs_on P s2 pl r keys allow_none sigalg claim else (s2, Raise EAssertionError)
                  end
              end
          end
      end
  end.

(** The payload and the signatures of the text, jws.py:641-655. *)
Definition json_parts (text : pval) : res (pval * list pval) :=
  v <- loads_any text;;
  pl <- match py_get v (lit "payload") with Raise EKeyError => Raise EJwsFormatError | r => r end;;
  signs <- match py_get v (lit "signatures") with
           | Ok x => py_iter x
           | Raise EKeyError =>
               match v with
               | VDict d => Ok [VDict (flat_map (fun n => match dget d n with Some x => [(n, x)] | None => [] end)
                                         [lit "protected"; lit "header"; lit "signature"])]
               | _ => Raise ETypeError
               end
           | Raise e => Raise e
           end;;
  Ok (pl, signs).

(** verify_json, jws.py:633-676. *)
Definition verify_json_on (P : prims) (s : jws) (text : pval) (keys : option (list jwk)) (allow_none : bool) (sigalg : pval) : jws * res pval :=
  match json_parts text with
  | Raise e => (s, Raise e)
  | Ok (pl, signs) => verify_signs_on P s pl signs keys allow_none sigalg VNone
  end.

Section JsonState.
Variable P : prims.

(** verify_compact never reads the attribute key. *)
Definition forget (s : jws) : jws := with_key s None.
Lemma checked_forget : forall s s' j keys alg, forget s = forget s' -> checked P (set_alg (set_jwt s j) alg) j keys alg = checked P (set_alg (set_jwt s' j) alg) j keys alg.
Proof.
  intros s s' j keys alg F. destruct s as [a b c d e], s' as [a' b' c' d' e']. injection F as <- <- <- <-. reflexivity.
Qed.
Lemma verify_forget : forall s s' token keys an sigalg, forget s = forget s' ->
  snd (verify_compact P s token keys an sigalg) = snd (verify_compact P s' token keys an sigalg) /\
  forget (fst (verify_compact P s token keys an sigalg)) = forget (fst (verify_compact P s' token keys an sigalg)).
Proof.
  intros s s' token keys an sigalg F. unfold verify_compact.
  match goal with |- context [match ?x with Ok _ => _ | Raise _ => _ end] => destruct x as [j|]; [|split; [reflexivity|exact F]] end. cbv zeta.
  assert (F1 : forget (set_jwt s j) = forget (set_jwt s' j)) by (destruct s as [a b c d e], s' as [a' b' c' d' e']; injection F as <- <- <- <-; reflexivity).
  assert (G : forall alg, snd (verify_alg P (set_jwt s j) j keys sigalg alg) = snd (verify_alg P (set_jwt s' j) j keys sigalg alg) /\ forget (fst (verify_alg P (set_jwt s j) j keys sigalg alg)) = forget (fst (verify_alg P (set_jwt s' j) j keys sigalg alg))).
  { intro alg. unfold verify_alg. assert (D : s_dict (set_jwt s j) = s_dict (set_jwt s' j)) by exact (f_equal s_dict F1). rewrite D.
    destruct (dmem (s_dict (set_jwt s' j)) (lit "alg") && truthy alg && negb (pval_eqb (kwarg (s_dict (set_jwt s' j)) (lit "alg") VNone) alg)); [split; [reflexivity|exact F1]|].
    destruct (truthy sigalg && negb (pval_eqb sigalg alg)); [split; [reflexivity|exact F1]|]. cbv zeta. rewrite (checked_forget s s' j keys alg F).
    assert (F2 : forget (set_alg (set_jwt s j) alg) = forget (set_alg (set_jwt s' j) alg)) by (destruct s as [a b c d e], s' as [a' b' c' d' e']; injection F as <- <- <- <-; reflexivity).
    destruct (checked P (set_alg (set_jwt s' j) alg) j keys alg) as [[k m]|]; (split; [reflexivity|]); [|exact F2]. unfold forget, with_key, set_key, set_msg in *. cbn [fst s_msg s_dict s_jwk s_jwt] in *. injection F2; intros; congruence. }
  destruct (py_get (j_headers j) (lit "alg")) as [alg|e].
  - destruct (none_alg alg) as [[|]|e]; [|apply G|split; [reflexivity|exact F1]]. destruct an; [|split; [reflexivity|exact F1]]. destruct (payload j) as [m|]; (split; [reflexivity|]); [|exact F1].
    unfold forget, with_key, set_msg in *. cbn [fst s_msg s_dict s_jwk s_jwt] in *. injection F1; intros; congruence.
  - destruct e; try (split; [reflexivity|exact F1]). apply G.
Qed.

Lemma init_self : forall kw n, init_from P kw = Ok n -> dmem kw (lit "self") = false.
Proof. intros kw n H. unfold init_from in H. destruct (dmem kw (lit "self")); [discriminate H|reflexivity]. Qed.

(** The model with the instance and the one without agree. *)
Lemma signs_on_agrees : forall signs s t pl keys an sigalg claim, forget s = forget t ->
  match verify_signs P t pl signs keys an sigalg claim with
  | Ok (c, t') => exists s', verify_signs_on P s pl signs keys an sigalg claim = (s', Ok c) /\ forget s' = forget t'
  | Raise e => exists s', verify_signs_on P s pl signs keys an sigalg claim = (s', Raise e)
  end.
Proof.
  induction signs as [|sg r IH]; intros s t pl keys an sigalg claim F; cbn [verify_signs verify_signs_on]; [exists s; split; [reflexivity|exact F]|].
  destruct (json_token pl sg) as [[tok hs]|e]; cbn [bind]; [|exists s; reflexivity]. unfold init_on. destruct (init_from P hs) as [n|e] eqn:N; cbn [bind].
  - rewrite (init_self _ _ N). assert (Fn : forget (with_key n (s_key s)) = forget n) by reflexivity.
    destruct (verify_forget _ _ (VBytes tok) keys an sigalg Fn) as [V1 V2]. destruct (verify_compact P (with_key n (s_key s)) (VBytes tok) keys an sigalg) as [s2 o]. destruct (verify_compact P n (VBytes tok) keys an sigalg) as [t2 o']. cbn [fst snd] in V1, V2. subst o'.
    destruct o as [[m k]|e]; cbn [bind]; [|exists s2; reflexivity].
    destruct claim; try (destruct (pval_eqb _ m); [apply IH; exact V2|exists s2; reflexivity]). apply IH. exact V2.
  - unfold init_from in N. destruct (dmem hs (lit "self")) eqn:D; [injection N as <-; exists s; reflexivity|]. eexists. reflexivity.
Qed.
Theorem json_on_agrees : forall s text keys an sigalg,
  match verify_json P s text keys an sigalg with
  | Ok (c, t) => exists s', verify_json_on P s text keys an sigalg = (s', Ok c) /\ forget s' = forget t
  | Raise e => exists s', verify_json_on P s text keys an sigalg = (s', Raise e)
  end.
Proof.
  intros s text keys an sigalg. unfold verify_json, verify_json_on, json_parts.
  destruct (loads_any text) as [v|]; cbn [bind]; [|eexists; reflexivity].
  destruct (py_get v (lit "payload")) as [pl|e]; [|destruct e; cbn [bind]; eexists; reflexivity]. cbn [bind].
  destruct (py_get v (lit "signatures")) as [x|e].
  - destruct (py_iter x) as [signs|]; cbn [bind]; [apply signs_on_agrees; reflexivity|eexists; reflexivity].
  - destruct e; cbn [bind]; try (eexists; reflexivity). destruct v; cbn [bind]; try (eexists; reflexivity). apply signs_on_agrees. reflexivity.
Qed.

(** Neither the answer nor what is left of the instance depends on the instance. *)
Lemma signs_on_forgets : forall signs s t pl keys an sigalg claim,
  snd (verify_signs_on P s pl signs keys an sigalg claim) = snd (verify_signs_on P t pl signs keys an sigalg claim) /\
  ((fst (verify_signs_on P s pl signs keys an sigalg claim) = s /\ fst (verify_signs_on P t pl signs keys an sigalg claim) = t) \/
   forget (fst (verify_signs_on P s pl signs keys an sigalg claim)) = forget (fst (verify_signs_on P t pl signs keys an sigalg claim))).
Proof.
  intros [|sg r] s t pl keys an sigalg claim; cbn [verify_signs_on]; [split; [reflexivity|left; split; reflexivity]|].
  destruct (json_token pl sg) as [[tok hs]|e]; [|split; [reflexivity|left; split; reflexivity]]. unfold init_on. destruct (dmem hs (lit "self")); [split; [reflexivity|left; split; reflexivity]|].
  destruct (init_from P hs) as [n|e]; [|split; [reflexivity|right; reflexivity]].
  assert (Fn : forget (with_key n (s_key s)) = forget (with_key n (s_key t))) by reflexivity.
  destruct (verify_forget _ _ (VBytes tok) keys an sigalg Fn) as [V1 V2]. destruct (verify_compact P (with_key n (s_key s)) (VBytes tok) keys an sigalg) as [s2 o]. destruct (verify_compact P (with_key n (s_key t)) (VBytes tok) keys an sigalg) as [t2 o']. cbn [fst snd] in V1, V2. subst o'.
  destruct o as [[m k]|e]; [|split; [reflexivity|right; exact V2]].
  assert (G : forall r s t claim, forget s = forget t -> snd (verify_signs_on P s pl r keys an sigalg claim) = snd (verify_signs_on P t pl r keys an sigalg claim) /\ forget (fst (verify_signs_on P s pl r keys an sigalg claim)) = forget (fst (verify_signs_on P t pl r keys an sigalg claim))).
  { clear. induction r as [|sg r IH]; intros s t claim F; cbn [verify_signs_on]; [split; [reflexivity|exact F]|]. destruct (json_token pl sg) as [[tok hs]|e]; [|split; [reflexivity|exact F]].
    unfold init_on. destruct (dmem hs (lit "self")); [split; [reflexivity|exact F]|]. destruct (init_from P hs) as [n|e]; [|split; reflexivity].
    assert (Fn : forget (with_key n (s_key s)) = forget (with_key n (s_key t))) by reflexivity.
    destruct (verify_forget _ _ (VBytes tok) keys an sigalg Fn) as [V1 V2]. destruct (verify_compact P (with_key n (s_key s)) (VBytes tok) keys an sigalg) as [s2 o]. destruct (verify_compact P (with_key n (s_key t)) (VBytes tok) keys an sigalg) as [t2 o']. cbn [fst snd] in V1, V2. subst o'.
    destruct o as [[m k]|e]; [|split; [reflexivity|exact V2]]. destruct claim; try (destruct (pval_eqb _ m); [apply IH; exact V2|split; [reflexivity|exact V2]]). apply IH. exact V2. }
  destruct claim; try (destruct (pval_eqb _ m); [split; [apply G; exact V2|right; apply G; exact V2]|split; [reflexivity|right; exact V2]]).
  destruct (G r s2 t2 m V2) as [A B]. split; [exact A|right; exact B].
Qed.
Theorem json_on_forgets : forall s t text keys an sigalg,
  snd (verify_json_on P s text keys an sigalg) = snd (verify_json_on P t text keys an sigalg) /\
  ((fst (verify_json_on P s text keys an sigalg) = s /\ fst (verify_json_on P t text keys an sigalg) = t) \/
   forget (fst (verify_json_on P s text keys an sigalg)) = forget (fst (verify_json_on P t text keys an sigalg))).
Proof.
  intros s t text keys an sigalg. unfold verify_json_on. destruct (json_parts text) as [[pl signs]|]; [apply signs_on_forgets|]. split; [reflexivity|left; split; reflexivity].
Qed.
End JsonState.

(** A JSON token with a key of its own, refused because the caller's key is another one. *)
Definition other_key : jwk := raw_sym (lit "other").
Definition pinned_jws : jws := {| s_msg := VNone; s_dict := [(lit "alg", VStr (lit "RS256"))]; s_jwk := None; s_jwt := None; s_key := None |}.
Lemma refused_json : snd (verify_json_on std pinned_jws (VStr embedded) (Some [other_key]) false VNone) = Raise EBadSignature.
Proof. vm_compute. reflexivity. Qed.
Lemma before_json : snd (verify_compact std pinned_jws (VStr ex_tok) None false VNone) = Raise ESignerAlgError.
Proof. vm_compute. reflexivity. Qed.
Lemma after_json : (' (m, _) <- snd (verify_compact std (fst (verify_json_on std pinned_jws (VStr embedded) (Some [other_key]) false VNone)) (VStr ex_tok) None false VNone);; Ok m) = Ok (VStr (lit "hello")).
Proof. vm_compute. reflexivity. Qed.
