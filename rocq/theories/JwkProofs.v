(** * Proofs about keys: serialization and deserialization *)
From Coq Require Import ZArith List Bool Lia ZifyBool.
From Verif Require Import Base BaseProofs Utf8 Codec CodecProofs Json JsonProofs Jwt JwtProofs Prims Elliptic Ecc PvalEq Jwk.
Import ListNotations.
Open Scope Z_scope.

(** Compute comparisons of literal names. *)
Ltac lits := repeat match goal with
  | |- context [zs_eqb (lit ?a) (lit ?b)] => let v := eval vm_compute in (zs_eqb (lit a) (lit b)) in change (zs_eqb (lit a) (lit b)) with v
  end.

(** Text that UTF-8 can encode. *)
Definition is_text (v : pval) : bool := match v with VStr s => scalars s | _ => false end.

Definition encb (v : pval) : pval := match v with VStr s => VBytes (concat (map utf8_enc_c s)) | _ => v end.

Lemma as_bytes_text : forall v, is_text v = true -> as_bytes v = Ok (encb v).
Proof. intros [] H; try discriminate H. cbn in *. unfold utf8_encode. rewrite H. reflexivity. Qed.

Lemma utf8_enc_c_nonnil : forall c, utf8_enc_c c <> [].
Proof. intro c. unfold utf8_enc_c. destruct (c <? 128), (c <? 2048), (c <? 65536); discriminate. Qed.

Lemma encb_truthy : forall v, is_text v = true -> truthy (encb v) = truthy v.
Proof.
  intros [| | | |s| | |] H; try discriminate H. cbn. destruct s as [|c s]; [reflexivity|]. cbn.
  pose proof (utf8_enc_c_nonnil c). destruct (utf8_enc_c c); [congruence|]. reflexivity.
Qed.

Lemma textual_encb : forall v, is_text v = true -> textual (encb v) = v.
Proof.
  intros [| | | |s| | |] H; try discriminate H. cbn in *. unfold textual. cbn [is_str as_unicode].
  rewrite utf8_decode_concat by exact H. reflexivity.
Qed.
Lemma textual_text : forall v, is_text v = true -> textual v = v.
Proof. intros [| | | |s| | |] H; try discriminate H. reflexivity. Qed.

Definition all_text (d : dict) : Prop := Forall (fun kv => is_text (snd kv) = true) d.

Lemma enc_values_text : forall d, all_text d -> enc_values d = Ok (map (fun kv => (fst kv, encb (snd kv))) d).
Proof.
  intros d H. induction H as [|[k v] d Hv Hd IH]; [reflexivity|]. cbn in *. rewrite as_bytes_text by exact Hv. cbn. rewrite IH. reflexivity.
Qed.

Lemma dget_map_snd : forall (f : pval -> pval) d n, dget (map (fun kv => (fst kv, f (snd kv))) d) n = option_map f (dget d n).
Proof. induction d as [|[k v] d IH]; intro n; [reflexivity|]. cbn. destruct (zs_eqb k n); [reflexivity|apply IH]. Qed.

Lemma all_text_dset : forall d n v, all_text d -> is_text v = true -> all_text (dset d n v).
Proof.
  intros d n v H V. induction H as [|[k w] d Hw Hd IH]; cbn; [constructor; [exact V|constructor]|].
  destruct (zs_eqb k n); constructor; assumption.
Qed.

Lemma dkeys_dset : forall A (d : list (ustr * A)) n v m, In m (dkeys (dset d n v)) -> In m (dkeys d) \/ m = n.
Proof.
  induction d as [|[k w] d IH]; cbn; intros n v m H; [destruct H as [H|[]]; right; congruence|].
  destruct (zs_eqb k n) eqn:E; cbn in H; destruct H as [H|H]; auto. destruct (IH _ _ _ H); auto.
Qed.

(** ** Numbers *)

Definition posnum (v : pval) : Prop := v = VStr [] \/ exists z, 0 < z /\ v = VInt z.

Lemma scalars_ascii : forall s, ascii s = true -> scalars s = true.
Proof.
  intros s H. unfold ascii, scalars in *. rewrite forallb_forall in *. intros c I. specialize (H c I). unfold is_scalar. lia.
Qed.

Lemma encb_ascii : forall s, ascii s = true -> encb (VStr s) = VBytes s.
Proof.
  intros s H. cbn. pose proof (utf8_encode_ascii s H) as E. unfold utf8_encode in E. destruct (scalars s); [|discriminate].
  injection E as E. rewrite E. reflexivity.
Qed.

Lemma num_b64 : forall z, 0 < z -> exists t, num_to_base64 (VInt z) = Ok (VStr t) /\ long_to_base64 z = Ok t /\ ascii t = true /\ t <> [] /\
  deser (VBytes t) = Ok z /\ deser (VStr t) = Ok z.
Proof.
  intros z H. destruct (long_to_base64_spec z H) as [a [t [H1 [H2 [H3 [H4 H5]]]]]]. exists t.
  assert (A : ascii t = true) by (subst t; apply b64e_ascii; exact H4).
  assert (D : base64_to_long_b t = Ok z) by (apply base64_to_long_long_to_base64; [lia|exact H1]).
  unfold num_to_base64. cbn [as_int]. rewrite H1. cbn. split; [reflexivity|]. split; [reflexivity|]. split; [exact A|]. split.
  { intro E. subst t. apply b64e_nil in E; [|exact H4]. subst a. exact H5. }
  split; [exact D|]. rewrite utf8_encode_ascii by exact A. cbn. exact D.
Qed.

Lemma posnum_cases : forall v, posnum v -> (truthy v = false /\ v = VStr []) \/ (truthy v = true /\ exists z t, v = VInt z /\ 0 < z /\
  num_to_base64 v = Ok (VStr t) /\ ascii t = true /\ t <> [] /\ deser (VBytes t) = Ok z /\ deser (VStr t) = Ok z).
Proof.
  intros v [->|[z [H ->]]]; [left; split; reflexivity|right]. split; [cbn; lia|]. destruct (num_b64 z H) as [t [A [B [C [D [E F]]]]]].
  exists z, t. repeat split; assumption.
Qed.

(** add_nums: what the dictionary holds afterwards. *)
Lemma add_nums_spec : forall names acc nums, (forall n, In n names -> posnum (num nums n)) -> all_text acc ->
  exists acc', add_nums acc nums names = Ok acc' /\ all_text acc' /\
    (forall m, In m (dkeys acc') -> In m (dkeys acc) \/ In m names) /\
    (forall m, In m names -> truthy (num nums m) = true -> exists t, num_to_base64 (num nums m) = Ok (VStr t) /\ dget acc' m = Some (VStr t)) /\
    (forall m, ~ In m names \/ truthy (num nums m) = false -> dget acc' m = dget acc m).
Proof.
  induction names as [|n names IH]; intros acc nums Hn Ha.
  - exists acc. split; [reflexivity|]. split; [exact Ha|]. split; [auto|]. split; [intros m []|]. reflexivity.
  - cbn [add_nums].
    destruct (posnum_cases (num nums n) (Hn n (or_introl eq_refl))) as [[T E]|[T [z [t [E [Z [N [A [NE _]]]]]]]]].
    + rewrite T. cbn [bind]. destruct (IH acc nums) as [acc' [H1 [H2 [H3 [H4 H5]]]]]; [intros; apply Hn; right; assumption|exact Ha|].
      exists acc'. split; [exact H1|]. split; [exact H2|]. split; [intros m M; destruct (H3 m M); [left|right; right]; assumption|]. split.
      * intros m [<-|I] Tm; [congruence|]. exact (H4 m I Tm).
      * intros m [I|I]; apply H5; [left; intro J; apply I; right; exact J|right; exact I].
    + rewrite T, N. cbn [bind].
      destruct (IH (dset acc n (VStr t)) nums) as [acc' [H1 [H2 [H3 [H4 H5]]]]]; [intros; apply Hn; right; assumption| |].
      { apply all_text_dset; [exact Ha|]. cbn. apply scalars_ascii. exact A. }
      exists acc'. split; [exact H1|]. split; [exact H2|]. split; [|split].
      * intros m M. destruct (H3 m M) as [K|K]; [|right; right; exact K]. apply dkeys_dset in K. destruct K as [K|K]; [left; exact K|right; left; congruence].
      * intros m I Tm. destruct (in_dec (list_eq_dec Z.eq_dec) m names) as [J|J]; [exact (H4 m J Tm)|].
        destruct I as [<-|I]; [|contradiction]. exists t. split; [exact N|]. rewrite H5 by (left; exact J). apply dget_dset_same.
      * intros m [I|I].
        -- rewrite H5 by (left; intro J; apply I; right; exact J). apply dget_dset_other. intro J. apply I. left. exact J.
        -- rewrite H5 by (right; exact I). apply dget_dset_other. intro J. subst m. congruence.
Qed.

(** ** Annotations *)

Definition annotated (k : jwk) : Prop :=
  is_text (k_kty k) = true /\ is_text (k_alg k) = true /\ is_text (k_use k) = true /\ is_text (k_kid k) = true.

Definition four : list ustr := [lit "kty"; lit "use"; lit "kid"; lit "alg"].
Definition opt (v : pval) : option pval := if truthy v then Some v else None.

Lemma common_get : forall k n, dget (common k) n =
  if zs_eqb (lit "kty") n then Some (k_kty k) else if zs_eqb (lit "use") n then opt (k_use k)
  else if zs_eqb (lit "kid") n then opt (k_kid k) else if zs_eqb (lit "alg") n then opt (k_alg k) else None.
Proof.
  intros k n. unfold common, opt.
  destruct (truthy (k_use k)), (truthy (k_kid k)), (truthy (k_alg k)); rewrite ?dget_dset; cbn [dget];
  destruct (zs_eqb (lit "kty") n) eqn:E1; destruct (zs_eqb (lit "use") n) eqn:E2; destruct (zs_eqb (lit "kid") n) eqn:E3;
  destruct (zs_eqb (lit "alg") n) eqn:E4; try reflexivity;
  exfalso; repeat match goal with H : zs_eqb _ n = true |- _ => apply zs_eqb_eq in H end; subst n; discriminate.
Qed.

Lemma common_text : forall k, annotated k -> all_text (common k).
Proof.
  intros k [A [B [C D]]]. unfold common.
  destruct (truthy (k_use k)), (truthy (k_kid k)), (truthy (k_alg k)); repeat apply all_text_dset; try assumption; constructor; auto; constructor.
Qed.

Lemma common_keys : forall k m, In m (dkeys (common k)) -> In m four.
Proof.
  intros k m I. destruct (In_dkeys_dget _ _ _ I) as [v E]. rewrite common_get in E. unfold four.
  destruct (zs_eqb (lit "kty") m) eqn:E1; [apply zs_eqb_eq in E1; left; exact E1|].
  destruct (zs_eqb (lit "use") m) eqn:E2; [apply zs_eqb_eq in E2; right; left; exact E2|].
  destruct (zs_eqb (lit "kid") m) eqn:E3; [apply zs_eqb_eq in E3; do 2 right; left; exact E3|].
  destruct (zs_eqb (lit "alg") m) eqn:E4; [apply zs_eqb_eq in E4; do 3 right; left; exact E4|discriminate].
Qed.

Lemma dget_none_keys : forall A (d : list (ustr * A)) n, ~ In n (dkeys d) -> dget d n = None.
Proof.
  intros A d n H. destruct (dget d n) as [v|] eqn:E; [|reflexivity]. exfalso. apply H. apply dget_In in E.
  apply in_map_iff. exists (n, v). split; [reflexivity|exact E].
Qed.

(** A dictionary serialized from k with further members [ser]: the keyword arguments restore the annotations. *)
Definition fields (kty alg use kid : pval) (data : kdata) : jwk :=
  {| k_kty := kty; k_alg := alg; k_use := use; k_kid := kid; k_x5c := VList []; k_x5t := VStr []; k_x5u := VStr [];
     k_extra := []; k_hash := None; k_data := data |}.

Lemma in_names_In : forall n l, in_names n l = true <-> In n l.
Proof.
  intros n l. unfold in_names. rewrite existsb_exists. split.
  - intros [x [I E]]. apply zs_eqb_eq in E. subst. exact I.
  - intro I. exists n. split; [exact I|apply zs_eqb_refl].
Qed.

Lemma not_names : forall n l, in_names n l = false -> ~ In n l.
Proof. intros n l H I. apply in_names_In in I. congruence. Qed.

(** The names the four classes treat specially, other than the annotations. *)
Definition special : list ustr := [lit "self"; lit "key"; lit "x5c"; lit "x5t"; lit "x5u"; lit "curve"; lit "mtrl"].

Lemma opt_textual : forall v, is_text v = true -> textual (match option_map encb (opt v) with Some w => w | None => VStr [] end) = v.
Proof.
  intros v H. unfold opt. destruct (truthy v) eqn:T; cbn [option_map]; [apply textual_encb; exact H|].
  destruct v as [| | | |s| | |]; try discriminate H. destruct s; [reflexivity|discriminate T].
Qed.

(** Generic part: a dictionary [b] that agrees with [common k] on the annotations and otherwise only has the members
    [names], encoded by keyrep, goes through Key.__init__ to the annotations of k. *)
Lemma key_init_ser : forall k b names consumed dflt data, annotated k -> all_text b ->
  (forall m, In m four -> dget b m = dget (common k) m) ->
  (forall m, In m (dkeys b) -> In m four \/ In m names) ->
  (forall m, In m names -> In m consumed) -> forallb (fun m => negb (in_names m (special ++ common_params))) names = true ->
  key_init (map (fun kv => (fst kv, encb (snd kv))) b) dflt consumed data =
    Ok (fields (k_kty k) (k_alg k) (k_use k) (k_kid k) data) /\
  (forall m, In m special -> dget (map (fun kv => (fst kv, encb (snd kv))) b) m = None).
Proof.
  intros k b names consumed dflt data [A1 [A2 [A3 A4]]] T F K C N.
  set (kw := map (fun kv => (fst kv, encb (snd kv))) b).
  assert (S : forall m, In m special -> dget kw m = None).
  { intros m I. subst kw. rewrite dget_map_snd. rewrite dget_none_keys; [reflexivity|]. intro J. destruct (K m J) as [J'|J'].
    - clear -I J'. unfold special, four in *. cbn [In] in I, J'. repeat (destruct I as [<-|I]; [repeat (destruct J' as [J'|J']; [vm_compute in J'; discriminate J'|]); exact J'|]). exact I.
    - rewrite forallb_forall in N. specialize (N m J'). apply negb_true_iff in N. apply not_names in N. apply N. apply in_or_app. left. exact I. }
  split; [|exact S]. unfold key_init. unfold dmem. rewrite S by (left; reflexivity). unfold fields. f_equal.
  assert (G : forall m, In m four -> dget kw m = option_map encb (dget (common k) m)).
  { intros m I. subst kw. rewrite dget_map_snd, F by exact I. reflexivity. }
  unfold kwarg. rewrite !G by (unfold four; cbn [In]; tauto). rewrite !common_get. lits. cbn match.
  rewrite (S (lit "x5c")) by (unfold special; cbn [In]; tauto).
  rewrite (S (lit "x5t")) by (unfold special; cbn [In]; tauto).
  rewrite (S (lit "x5u")) by (unfold special; cbn [In]; tauto).
  f_equal; try (apply opt_textual; assumption); try reflexivity.
  - cbn [option_map]. apply textual_encb. exact A1.
  - assert (E : forall kv, In kv kw -> negb (in_names (fst kv) (common_params ++ consumed)) = false).
    { intros [m v] I. apply negb_false_iff. apply in_names_In. cbn [fst]. assert (J : In m (dkeys b)).
      { subst kw. apply in_map_iff in I. destruct I as [[m' v'] [E I]]. injection E as <- <-. apply in_map_iff. exists (m', v'). split; [reflexivity|exact I]. }
      apply in_or_app. destruct (K m J) as [J'|J']; [left|right; apply C; exact J']. unfold four in J'. unfold common_params. cbn [In] in *. tauto. }
    clear -E. induction kw as [|kv kw IH]; [reflexivity|]. cbn [filter]. rewrite (E kv (or_introl eq_refl)). apply IH. intros x I. apply E. right. exact I.
Qed.

(** ** RSA round trip *)

Definition rsa_nums_ok (nums : dict) : Prop := dkeys nums = rsa_longs /\ (forall n, In n rsa_longs -> posnum (num nums n)).

Lemma dict_by_keys : forall (d : dict) x, nodup_keys d = true -> d = map (fun n => (n, kwarg d n x)) (dkeys d).
Proof.
  induction d as [|[k v] d IH]; intros x H; [reflexivity|]. cbn [dkeys map]. unfold dkeys in *. unfold kwarg at 1. cbn [dget fst]. rewrite zs_eqb_refl. f_equal.
  cbn [nodup_keys] in H. apply andb_true_iff in H. destruct H as [H1 H2]. rewrite (IH x H2) at 1. apply map_ext_in. intros n I. f_equal.
  unfold kwarg. cbn [dget fst]. destruct (zs_eqb k n) eqn:E; [|reflexivity]. exfalso. apply zs_eqb_eq in E. subst n.
  destruct (In_dkeys_dget _ d k I) as [w W]. unfold dmem in H1. rewrite W in H1. discriminate.
Qed.

Lemma nodup_keys_of : forall (d : dict) l, dkeys d = l -> nodup_keys (map (fun n => (n, tt)) l) = true -> nodup_keys d = true.
Proof.
  intros d l <-. induction d as [|[k v] d IH]; [reflexivity|]. cbn. intro H. apply andb_true_iff in H. destruct H as [H1 H2].
  rewrite IH by exact H2. apply andb_true_iff. split; [|reflexivity]. unfold dmem in *. apply negb_true_iff in H1. apply negb_true_iff.
  clear -H1. induction d as [|[k' v'] d IH]; [reflexivity|]. cbn in *. destruct (zs_eqb k' k); [discriminate|]. apply IH. exact H1.
Qed.

Lemma rsa_nums_map : forall nums, rsa_nums_ok nums -> nums = map (fun n => (n, num nums n)) rsa_longs.
Proof.
  intros nums [K _]. rewrite <- K. apply dict_by_keys. apply (nodup_keys_of _ _ K). vm_compute. reflexivity.
Qed.

Lemma num_map : forall (f : ustr -> pval) names n, In n names -> num (map (fun m => (m, f m)) names) n = f n.
Proof.
  intros f names n I. unfold num, kwarg. induction names as [|m names IH]; [destruct I|]. cbn [map dget].
  destruct (zs_eqb m n) eqn:E; [apply zs_eqb_eq in E; subst; reflexivity|]. apply IH. destruct I as [->|I]; [rewrite zs_eqb_refl in E; discriminate|exact I].
Qed.

Definition wire (v0 v : pval) : Prop :=
  (v0 = VStr [] /\ v = VStr []) \/ exists t z, (v0 = VBytes t \/ v0 = VStr t) /\ t <> [] /\ deser v0 = Ok z /\ v = VInt z.

Lemma deser_nums_wire : forall names f g, (forall n, In n names -> wire (f n) (g n)) ->
  deser_nums (map (fun n => (n, f n)) names) = Ok (map (fun n => (n, g n)) names).
Proof.
  induction names as [|n names IH]; intros f g H; [reflexivity|]. cbn [map deser_nums].
  rewrite (IH f g) by (intros; apply H; right; assumption).
  destruct (H n (or_introl eq_refl)) as [[-> ->]|[t [z [V [N [D ->]]]]]]; [reflexivity|].
  replace (negb (truthy (f n)) || is_int (f n)) with false; [rewrite D; reflexivity|].
  destruct V as [->| ->]; destruct t; try contradiction; reflexivity.
Qed.

Lemma conv_ok : forall A (a : A), conv_value_error (Ok a) = Ok a. Proof. reflexivity. Qed.

Lemma rsa_ser : forall k key nums, k_data k = DRsa key nums -> otruthy key = true -> rsa_nums_ok nums -> annotated k ->
  exists b, serialize k true = Ok (VDict b) /\ all_text b /\
    (forall m, In m (dkeys b) -> In m four \/ In m rsa_longs) /\
    (forall m, In m rsa_longs -> truthy (num nums m) = true -> exists t, num_to_base64 (num nums m) = Ok (VStr t) /\ dget b m = Some (VStr t)) /\
    (forall m, ~ In m rsa_longs \/ truthy (num nums m) = false -> dget b m = dget (common k) m).
Proof.
  intros k key nums D T [K PN] A. unfold serialize. rewrite D, T.
  destruct (add_nums_spec [lit "n"; lit "e"] (common k) nums) as [a [A1 [A2 [A3 [A4 A5]]]]].
  { intros n I. apply PN. unfold rsa_longs. cbn [In] in *. tauto. } { apply common_text. exact A. }
  rewrite A1. cbn [bind]. destruct (add_nums_spec rsa_longs a nums PN A2) as [b [B1 [B2 [B3 [B4 B5]]]]].
  rewrite B1. cbn [bind]. exists b. split; [reflexivity|]. split; [exact B2|]. split; [|split].
  - intros m I. destruct (B3 m I) as [J|J]; [|right; exact J]. destruct (A3 m J) as [J'|J']; [left; apply common_keys in J'; exact J'|right].
    unfold rsa_longs. cbn [In] in *. tauto.
  - exact B4.
  - intros m H. rewrite (B5 m H). apply A5. destruct H as [H|H]; [left|right; exact H]. intro I. apply H. unfold rsa_longs. cbn [In] in *. tauto.
Qed.

Lemma pval_eqb_str : forall a b, pval_eqb (VStr a) (VStr b) = zs_eqb a b. Proof. reflexivity. Qed.

Lemma names_disjoint : forall l m, forallb (fun x => negb (in_names x m)) l = true -> forall n, In n l -> ~ In n m.
Proof. intros l m H n I. rewrite forallb_forall in H. specialize (H n I). apply negb_true_iff in H. apply not_names. exact H. Qed.

(** The dictionary [b] carries the annotations of k and the numbers nums. *)
Definition carries (k : jwk) (nums b : dict) : Prop := all_text b /\
  (forall m, In m (dkeys b) -> In m four \/ In m rsa_longs) /\
  (forall m, In m rsa_longs -> truthy (num nums m) = true -> exists t, num_to_base64 (num nums m) = Ok (VStr t) /\ dget b m = Some (VStr t)) /\
  (forall m, ~ In m rsa_longs \/ truthy (num nums m) = false -> dget b m = dget (common k) m).

Lemma rsa_keyrep : forall P k nums r b, carries k nums b -> rsa_nums_ok nums ->
  annotated k -> k_kty k = VStr (lit "RSA") -> truthy (num nums (lit "n")) = true -> truthy (num nums (lit "e")) = true ->
  p_rsa_construct P (construct_args nums) = Ok r ->
  keyrep P (VDict b) = Ok (fields (k_kty k) (k_alg k) (k_use k) (k_kid k) (DRsa (ORsa r) nums)).
Proof.
  intros P k nums r b [B [K [G O]]] N A Y Tn Te C. unfold keyrep. rewrite enc_values_text by exact B. cbn [bind].
  assert (F4 : forall m, In m four -> dget b m = dget (common k) m).
  { intros m I. apply O. left. revert m I. apply names_disjoint. vm_compute. reflexivity. }
  rewrite (F4 (lit "kty")) by (left; reflexivity). rewrite common_get. lits. cbn match. rewrite Y. unfold dispatch. rewrite pval_eqb_str. lits. cbn match.
  destruct (key_init_ser k b rsa_longs rsa_longs (lit "RSA") (DRsa onone []) A B F4 K (fun m H => H)) as [_ SP]; [vm_compute; reflexivity|].
  set (kw := map (fun kv => (fst kv, encb (snd kv))) b) in *.
  unfold kwarg at 1. rewrite (SP (lit "key")) by (unfold special; cbn [In]; tauto).
  unfold rsa_new. set (nums0 := map (fun name => (name, kwarg kw name (VStr []))) rsa_longs).
  destruct (key_init_ser k b rsa_longs rsa_longs (lit "RSA") (DRsa (OVal VNone) nums0) A B F4 K (fun m H => H)) as [KI _]; [vm_compute; reflexivity|].
  fold kw in KI. rewrite KI. clear KI. cbn [bind].
  assert (W : forall n, In n rsa_longs -> wire (kwarg kw n (VStr [])) (num nums n)).
  { intros n I. destruct (posnum_cases _ (proj2 N n I)) as [[Tv E]|[Tv [z [t [E [Z [E1 [E2 [E3 [E4 E5]]]]]]]]]].
    - left. rewrite E. split; [|reflexivity]. unfold kwarg, kw. rewrite dget_map_snd, O by (right; exact Tv).
      rewrite common_get. assert (X : ~ In n four) by (revert n I E Tv; intros n I _ _; revert n I; apply names_disjoint; vm_compute; reflexivity).
      repeat match goal with |- context [zs_eqb ?a n] => destruct (zs_eqb a n) eqn:?E;
        [exfalso; apply X; match goal with H : zs_eqb a n = true |- _ => apply zs_eqb_eq in H; rewrite <- H end; unfold four; cbn [In]; tauto|] end. reflexivity.
    - right. destruct (G n I Tv) as [t' [G1 G2]]. rewrite E1 in G1. injection G1 as <-. exists t, z. unfold kwarg, kw. rewrite dget_map_snd, G2. cbn [option_map].
      rewrite encb_ascii by exact E2. split; [left; reflexivity|]. split; [exact E3|]. split; [exact E4|exact E]. }
  assert (L : forall n, In n rsa_longs -> truthy (num nums n) = true -> exists t, kwarg kw n (VStr []) = VBytes t /\ t <> []).
  { intros n I Tv. destruct (W n I) as [[_ E]|[t [z [_ [NE [_ E]]]]]]; [rewrite E in Tv; discriminate|].
    destruct (G n I Tv) as [t' [G1 G2]]. unfold kwarg, kw. rewrite dget_map_snd, G2. cbn [option_map encb].
    eexists. split; [reflexivity|]. destruct (posnum_cases _ (proj2 N n I)) as [[Tv' _]|[_ [z' [t2 [_ [_ [E1 [E2 [E3 _]]]]]]]]]; [congruence|].
    rewrite G1 in E1. injection E1 as ->. pose proof (encb_ascii t2 E2) as E'. cbn in E'. injection E' as ->. exact E3. }
  assert (In_n : In (lit "n") rsa_longs) by (left; reflexivity).
  assert (In_e : In (lit "e") rsa_longs) by (right; left; reflexivity).
  unfold nums0. rewrite !num_map by assumption.
  destruct (L _ In_n Tn) as [tn [En NEn]]. destruct (L _ In_e Te) as [te [Ee NEe]]. rewrite En, Ee. cbn [py_len bind].
  assert (Ln : Nat.ltb 0 (length tn) = true) by (destruct tn; [contradiction|reflexivity]).
  assert (Le : Nat.ltb 0 (length te) = true) by (destruct te; [contradiction|reflexivity]).
  rewrite Ln. cbn [bind]. cbn [fields k_x5c k_x5t py_len bind otruthy truthy negb andb]. rewrite Le. cbn [orb].
  unfold rsa_deserialize. fold nums0. unfold nums0. rewrite !num_map by assumption. rewrite En, Ee.
  assert (TB : forall t, t <> [] -> truthy (VBytes t) = true) by (intros []; [contradiction|reflexivity]).
  rewrite !TB by assumption. cbn [andb].
  rewrite (deser_nums_wire rsa_longs (fun n => kwarg kw n (VStr [])) (fun n => num nums n) W). cbn [bind].
  rewrite <- (rsa_nums_map nums N). rewrite C. cbn [bind conv_value_error]. unfold set_data, fields. cbn. rewrite Y. reflexivity.
Qed.

Theorem rsa_roundtrip : forall P k key nums r, k_data k = DRsa key nums -> otruthy key = true -> rsa_nums_ok nums ->
  annotated k -> k_kty k = VStr (lit "RSA") -> truthy (num nums (lit "n")) = true -> truthy (num nums (lit "e")) = true ->
  p_rsa_construct P (construct_args nums) = Ok r ->
  exists s, serialize k true = Ok s /\ keyrep P s = Ok (fields (k_kty k) (k_alg k) (k_use k) (k_kid k) (DRsa (ORsa r) nums)).
Proof.
  intros P k key nums r D T N A Y Tn Te C. destruct (rsa_ser k key nums D T N A) as [b [S H]].
  exists (VDict b). split; [exact S|]. apply rsa_keyrep; assumption.
Qed.

(** The public numbers only. *)
Definition public_nums (nums : dict) : dict :=
  map (fun n => (n, if in_names n [lit "n"; lit "e"] then num nums n else VStr [])) rsa_longs.

Lemma public_nums_num : forall nums n, In n rsa_longs -> num (public_nums nums) n = if in_names n [lit "n"; lit "e"] then num nums n else VStr [].
Proof. intros nums n I. unfold public_nums. apply (num_map (fun n => if in_names n [lit "n"; lit "e"] then num nums n else VStr [])). exact I. Qed.

Lemma public_nums_ok : forall nums, rsa_nums_ok nums -> rsa_nums_ok (public_nums nums).
Proof.
  intros nums [K N]. split; [reflexivity|]. intros n I. rewrite public_nums_num by exact I. destruct (in_names n _); [apply N; exact I|left; reflexivity].
Qed.

Lemma rsa_ser_public : forall k key nums, k_data k = DRsa key nums -> otruthy key = true -> rsa_nums_ok nums -> annotated k ->
  exists b, serialize k false = Ok (VDict b) /\ carries k (public_nums nums) b.
Proof.
  intros k key nums D T [K PN] A. unfold serialize. rewrite D, T.
  destruct (add_nums_spec [lit "n"; lit "e"] (common k) nums) as [a [A1 [A2 [A3 [A4 A5]]]]].
  { intros n I. apply PN. unfold rsa_longs. cbn [In] in *. tauto. } { apply common_text. exact A. }
  rewrite A1. cbn [bind]. exists a. split; [reflexivity|]. split; [exact A2|]. split; [|split].
  - intros m I. destruct (A3 m I) as [J|J]; [left; apply common_keys in J; exact J|right]. unfold rsa_longs. cbn [In] in *. tauto.
  - intros m I Tm. rewrite public_nums_num in * by exact I. destruct (in_names m _) eqn:E; [|discriminate]. apply in_names_In in E. exact (A4 m E Tm).
  - intros m H. apply A5. destruct (in_dec (list_eq_dec Z.eq_dec) m [lit "n"; lit "e"]) as [I|I]; [right|left; exact I].
    destruct H as [H|H]; [exfalso; apply H; unfold rsa_longs; cbn [In] in *; tauto|].
    rewrite public_nums_num in H by (unfold rsa_longs; cbn [In] in *; tauto). apply in_names_In in I. rewrite I in H. exact H.
Qed.

Theorem rsa_roundtrip_public : forall P k key nums r, k_data k = DRsa key nums -> otruthy key = true -> rsa_nums_ok nums ->
  annotated k -> k_kty k = VStr (lit "RSA") -> truthy (num nums (lit "n")) = true -> truthy (num nums (lit "e")) = true ->
  p_rsa_construct P [int_of (num nums (lit "n")); int_of (num nums (lit "e"))] = Ok r ->
  exists b, serialize k false = Ok (VDict b) /\ all_text b /\
    keyrep P (VDict b) = Ok (fields (k_kty k) (k_alg k) (k_use k) (k_kid k) (DRsa (ORsa r) (public_nums nums))).
Proof.
  intros P k key nums r D T N A Y Tn Te C. destruct (rsa_ser_public k key nums D T N A) as [b [S H]].
  exists b. split; [exact S|]. split; [exact (proj1 H)|]. apply rsa_keyrep; try assumption. apply public_nums_ok; exact N.
Qed.

(** ** EC round trip *)

Definition named (c : curve) : Prop := by_name (lit "P-" ++ dec (c_bits c)) = Ok c.

Lemma by_name_ascii : forall n c, by_name n = Ok c -> ascii n = true.
Proof.
  intros n c H. unfold by_name in H. destruct (zs_eqb n (lit "P-256")) eqn:E1; [apply zs_eqb_eq in E1; subst; reflexivity|].
  destruct (zs_eqb n (lit "P-384")) eqn:E2; [apply zs_eqb_eq in E2; subst; reflexivity|].
  destruct (zs_eqb n (lit "P-521")) eqn:E3; [apply zs_eqb_eq in E3; subst; reflexivity|discriminate].
Qed.
Lemma by_name_nonnil : forall n c, by_name n = Ok c -> n <> [].
Proof. intros n c H E. subst n. vm_compute in H. discriminate. Qed.

Definition ec_names (private : bool) : list ustr := [lit "crv"; lit "x"; lit "y"] ++ if private then [lit "d"] else [].

Lemma ec_ser : forall k key crv x y d c private, k_data k = DEc key crv (VInt x) (VInt y) d (OCurve c) -> 0 < x -> 0 < y ->
  (private = true -> exists z, d = VInt z /\ 0 < z) -> named c -> annotated k ->
  exists b, serialize k private = Ok (VDict b) /\ all_text b /\
    (forall m, In m (dkeys b) -> In m four \/ In m (ec_names private)) /\
    (forall m, In m four -> dget b m = dget (common k) m) /\
    dget b (lit "crv") = Some (VStr (lit "P-" ++ dec (c_bits c))) /\
    (exists t, long_to_base64 x = Ok t /\ dget b (lit "x") = Some (VStr t)) /\
    (exists t, long_to_base64 y = Ok t /\ dget b (lit "y") = Some (VStr t)) /\
    (if private then exists z t, d = VInt z /\ long_to_base64 z = Ok t /\ dget b (lit "d") = Some (VStr t) else dget b (lit "d") = None).
Proof.
  intros k key crv x y d c private D X Y Hd N A. unfold serialize. rewrite D.
  replace (negb (truthy crv) && negb (otruthy (OCurve c))) with false by (cbn; rewrite andb_false_r; reflexivity).
  destruct (num_b64 x X) as [tx [X1 [X2 [X3 [X4 _]]]]]. destruct (num_b64 y Y) as [ty [Y1 [Y2 [Y3 [Y4 _]]]]]. rewrite X1, Y1. cbn [bind].
  set (r := dset (dset (dset (common k) (lit "crv") (VStr (lit "P-" ++ dec (c_bits c)))) (lit "x") (VStr tx)) (lit "y") (VStr ty)).
  assert (R : all_text r).
  { unfold r. repeat apply all_text_dset; [apply common_text; exact A|apply (scalars_ascii (lit "P-" ++ dec (c_bits c))); exact (by_name_ascii _ _ N)|apply scalars_ascii; exact X3|apply scalars_ascii; exact Y3]. }
  assert (RK : forall m, In m (dkeys r) -> In m four \/ In m (ec_names private)).
  { intros m I. unfold r in I. unfold ec_names. apply dkeys_dset in I. destruct I as [I| ->]; [|right; cbn [In app]; tauto].
    apply dkeys_dset in I. destruct I as [I| ->]; [|right; cbn [In app]; tauto].
    apply dkeys_dset in I. destruct I as [I| ->]; [left; apply common_keys in I; exact I|right; cbn [In app]; tauto]. }
  assert (RF : forall m, In m four -> dget r m = dget (common k) m).
  { intros m I. unfold r. unfold four in I. cbn [In] in I. repeat (destruct I as [<-|I]; [rewrite !dget_dset; lits; reflexivity|]). destruct I. }
  assert (RC : dget r (lit "crv") = Some (VStr (lit "P-" ++ dec (c_bits c)))) by (unfold r; rewrite !dget_dset; lits; reflexivity).
  assert (RX : dget r (lit "x") = Some (VStr tx)) by (unfold r; rewrite !dget_dset; lits; reflexivity).
  assert (RY : dget r (lit "y") = Some (VStr ty)) by (unfold r; rewrite !dget_dset; lits; reflexivity).
  destruct private; cbn [andb].
  - destruct (Hd eq_refl) as [z [-> Z]]. destruct (num_b64 z Z) as [tz [Z1 [Z2 [Z3 [Z4 _]]]]].
    replace (truthy (VInt z)) with true by (cbn; lia). rewrite Z1. cbn [bind]. exists (dset r (lit "d") (VStr tz)).
    split; [reflexivity|]. split; [apply all_text_dset; [exact R|apply scalars_ascii; exact Z3]|]. split; [|split; [|split; [|split; [|split]]]].
    + intros m I. apply dkeys_dset in I. destruct I as [I| ->]; [apply RK; exact I|right; unfold ec_names; cbn [In app]; tauto].
    + intros m I. rewrite dget_dset_other; [apply RF; exact I|]. intro E. subst m. unfold four in I. cbn [In] in I. repeat (destruct I as [I|I]; [vm_compute in I; discriminate I|]). exact I.
    + rewrite dget_dset; lits. exact RC.
    + exists tx. split; [exact X2|]. rewrite dget_dset; lits. exact RX.
    + exists ty. split; [exact Y2|]. rewrite dget_dset; lits. exact RY.
    + exists z, tz. split; [reflexivity|]. split; [exact Z2|]. apply dget_dset_same.
  - exists r. split; [reflexivity|]. split; [exact R|]. split; [exact RK|]. split; [exact RF|]. split; [exact RC|].
    split; [exists tx; split; [exact X2|exact RX]|]. split; [exists ty; split; [exact Y2|exact RY]|].
    unfold r. rewrite !dget_dset. lits. cbn match. rewrite common_get. lits. reflexivity.
Qed.

Lemma curve_by_name_b : forall n c, by_name n = Ok c -> curve_by_name (VBytes n) = Ok c. Proof. intros. exact H. Qed.

Theorem ec_roundtrip : forall P k key crv x y d c private, k_data k = DEc key crv (VInt x) (VInt y) d (OCurve c) -> 0 < x -> 0 < y ->
  (private = true -> exists z, d = VInt z /\ 0 < z) -> named c -> annotated k -> k_kty k = VStr (lit "EC") ->
  exists s, serialize k private = Ok s /\ keyrep P s = Ok (fields (k_kty k) (k_alg k) (k_use k) (k_kid k)
    (DEc onone (VBytes (lit "P-" ++ dec (c_bits c))) (VInt x) (VInt y)
         (if private then VBytes (match d with VInt z => match long_to_base64 z with Ok t => t | _ => [] end | _ => [] end) else VStr []) (OCurve c))).
Proof.
  intros P k key crv x y d c private D X Y Hd N A Ky.
  destruct (ec_ser k key crv x y d c private D X Y Hd N A) as [b [S [B [K [F4 [GC [[tx [LX GX]] [[ty [LY GY]] GD]]]]]]]].
  exists (VDict b). split; [exact S|]. unfold keyrep. rewrite enc_values_text by exact B. cbn [bind].
  rewrite (F4 (lit "kty")) by (left; reflexivity). rewrite common_get. lits. cbn match. rewrite Ky. unfold dispatch. rewrite !pval_eqb_str. lits. cbn match.
  destruct (num_b64 x X) as [tx' [X1 [X2 [X3 [X4 [X5 X6]]]]]]. rewrite LX in X2. injection X2 as <-.
  destruct (num_b64 y Y) as [ty' [Y1 [Y2 [Y3 [Y4 [Y5 Y6]]]]]]. rewrite LY in Y2. injection Y2 as <-.
  set (nm := lit "P-" ++ dec (c_bits c)) in *.
  assert (An : ascii nm = true) by (apply by_name_ascii with (c := c); exact N).
  assert (Nn : nm <> []) by (apply by_name_nonnil with (c := c); exact N).
  destruct (key_init_ser k b (ec_names private) ec_params (lit "EC") (DEc onone VNone VNone VNone VNone onone) A B F4 K) as [_ SP];
    [intros m I; unfold ec_names, ec_params in *; destruct private; cbn [In app] in *; tauto|destruct private; vm_compute; reflexivity|].
  set (kw := map (fun kv => (fst kv, encb (snd kv))) b) in *.
  unfold kwarg at 1 2. rewrite (SP (lit "key")) by (unfold special; cbn [In]; tauto). rewrite (SP (lit "curve")) by (unfold special; cbn [In]; tauto).
  unfold ec_new.
  assert (EC' : kwarg kw (lit "crv") (VStr []) = VBytes nm) by (unfold kwarg, kw; rewrite dget_map_snd, GC; cbn [option_map]; apply encb_ascii; exact An).
  assert (EX : kwarg kw (lit "x") (VStr []) = VBytes tx) by (unfold kwarg, kw; rewrite dget_map_snd, GX; cbn [option_map]; apply encb_ascii; exact X3).
  assert (EY : kwarg kw (lit "y") (VStr []) = VBytes ty) by (unfold kwarg, kw; rewrite dget_map_snd, GY; cbn [option_map]; apply encb_ascii; exact Y3).
  set (dd := if private then VBytes (match d with VInt z => match long_to_base64 z with Ok t => t | _ => [] end | _ => [] end) else VStr []).
  assert (ED : kwarg kw (lit "d") (VStr []) = dd).
  { unfold dd. destruct private.
    - destruct GD as [z [tz [-> [LZ GZ]]]]. rewrite LZ. unfold kwarg, kw. rewrite dget_map_snd, GZ. cbn [option_map]. apply encb_ascii.
      destruct (Hd eq_refl) as [z' [Ez Z]]. injection Ez as <-. apply long_to_base64_ascii with (n := z); [lia|exact LZ].
    - unfold kwarg, kw. rewrite dget_map_snd, GD. reflexivity. }
  rewrite EC', EX, EY, ED.
  destruct (key_init_ser k b (ec_names private) ec_params (lit "EC") (DEc (OVal VNone) (VBytes nm) (VBytes tx) (VBytes ty) dd (OVal VNone)) A B F4 K) as [KI _];
    [intros m I; unfold ec_names, ec_params in *; destruct private; cbn [In app] in *; tauto|destruct private; vm_compute; reflexivity|].
  fold kw in KI. rewrite KI. clear KI. cbn [bind].
  assert (TB : forall t, t <> [] -> truthy (VBytes t) = true) by (intros []; [contradiction|reflexivity]).
  rewrite TB by exact Nn. cbn [otruthy truthy negb andb]. cbn [verify_loop]. rewrite (TB tx X4). cbn [negb orb is_int octet_list].
  rewrite utf8_decode_ascii by exact X3. cbn [bind]. unfold ec_deserialize. cbn [is_int]. rewrite X6, Y5. cbn [bind conv_value_error].
  rewrite (curve_by_name_b nm c N). cbn [bind]. unfold dd. destruct private.
  - destruct (truthy _); cbn [bind]; unfold set_data, fields; cbn; rewrite Ky; reflexivity.
  - cbn [truthy bind]. unfold set_data, fields. cbn. rewrite Ky. reflexivity.
Qed.

(** key_from_jwk_dict keeps the text values, so the private number survives. *)
Theorem ec_from_dict : forall P k key crv x y z c, k_data k = DEc key crv (VInt x) (VInt y) (VInt z) (OCurve c) -> 0 < x -> 0 < y -> 0 < z ->
  named c -> annotated k -> k_kty k = VStr (lit "EC") -> truthy (k_kid k) = true ->
  exists s, serialize k true = Ok (VDict s) /\ key_from_jwk_dict P s true = Ok (fields (VStr (lit "EC")) (VStr []) (VStr []) (k_kid k)
    (DEc onone (VStr (lit "P-" ++ dec (c_bits c))) (VInt x) (VInt y) (VInt z) (OCurve c))).
Proof.
  intros P k key crv x y z c D X Y Z N A Ky Kid.
  destruct (ec_ser k key crv x y (VInt z) c true D X Y) as [b [S [B [K [F4 [GC [[tx [LX GX]] [[ty [LY GY]] [z' [tz [Ez [LZ GZ]]]]]]]]]]]];
    [intros _; exists z; split; [reflexivity|exact Z]|exact N|exact A|].
  injection Ez as <-. exists b. split; [exact S|]. unfold key_from_jwk_dict.
  rewrite (F4 (lit "kty")) by (left; reflexivity). rewrite common_get. lits. cbn match. rewrite Ky. rewrite pval_eqb_str. lits. cbn match.
  destruct (num_b64 x X) as [tx' [X1 [X2 [X3 [X4 [X5 X6]]]]]]. rewrite LX in X2. injection X2 as <-.
  destruct (num_b64 y Y) as [ty' [Y1 [Y2 [Y3 [Y4 [Y5 Y6]]]]]]. rewrite LY in Y2. injection Y2 as <-.
  destruct (num_b64 z Z) as [tz' [Z1 [Z2 [Z3 [Z4 [Z5 Z6]]]]]]. rewrite LZ in Z2. injection Z2 as <-.
  cbn [app take_args]. rewrite (F4 (lit "kid")) by (unfold four; cbn [In]; tauto). rewrite common_get. lits. cbn match. unfold opt. rewrite Kid.
  rewrite GC, GX, GY, GZ. cbn [bind]. set (nm := lit "P-" ++ dec (c_bits c)) in *.
  assert (Nn : nm <> []) by (apply by_name_nonnil with (c := c); exact N).
  unfold ec_new, kwarg. cbn [dget]. lits. cbn match.
  assert (TB : forall t, t <> [] -> truthy (VStr t) = true) by (intros []; [contradiction|reflexivity]).
  unfold key_init, dmem, kwarg. cbn [dget]. lits. cbn match. cbn [bind]. rewrite (TB nm Nn). cbn [otruthy onone truthy negb andb].
  cbn [verify_loop]. rewrite (TB tx X4). cbn [negb orb is_int octet_list bind]. unfold ec_deserialize. cbn [is_int]. rewrite X6, Y6. cbn [bind conv_value_error].
  unfold curve_by_name. unfold named in N. fold nm in N. rewrite N. cbn [bind]. rewrite (TB tz Z4), Z6. cbn [bind conv_value_error].
  unfold set_data, fields. cbn [k_kty k_alg k_use k_kid k_x5c k_x5t k_x5u k_extra k_hash].
  destruct A as [_ [_ [_ A]]]. rewrite (textual_text _ A). f_equal.
Qed.

(** ** Symmetric round trip *)

Lemma as_unicode_ascii : forall t, ascii t = true -> as_unicode (VBytes t) = VStr t.
Proof. intros t H. cbn. rewrite utf8_decode_ascii by exact H. reflexivity. Qed.

Theorem sym_roundtrip : forall P k key kk, k_data k = DSym (VBytes key) kk -> bytes_ok key = true -> key <> [] ->
  annotated k -> k_kty k = VStr (lit "oct") ->
  exists s, serialize k true = Ok s /\ keyrep P s = Ok (fields (k_kty k) (k_alg k) (k_use k) (k_kid k) (DSym (VBytes key) (VBytes (b64e key)))).
Proof.
  intros P k key kk D O NE A Ky. unfold serialize. rewrite D. cbn [py_bytes bind].
  assert (Ab : ascii (b64e key) = true) by (apply b64e_ascii; exact O). rewrite as_unicode_ascii by exact Ab.
  set (b := dset (common k) (lit "k") (VStr (b64e key))). exists (VDict b). split; [reflexivity|].
  assert (B : all_text b) by (apply all_text_dset; [apply common_text; exact A|apply scalars_ascii; exact Ab]).
  assert (F4 : forall m, In m four -> dget b m = dget (common k) m).
  { intros m I. unfold b. apply dget_dset_other. intro E. subst m. unfold four in I. cbn [In] in I. repeat (destruct I as [I|I]; [vm_compute in I; discriminate I|]). exact I. }
  assert (K : forall m, In m (dkeys b) -> In m four \/ In m [lit "k"]).
  { intros m I. unfold b in I. apply dkeys_dset in I. destruct I as [I| ->]; [left; apply common_keys in I; exact I|right; left; reflexivity]. }
  unfold keyrep. rewrite enc_values_text by exact B. cbn [bind].
  rewrite (F4 (lit "kty")) by (left; reflexivity). rewrite common_get. lits. cbn match. rewrite Ky. unfold dispatch. rewrite !pval_eqb_str. lits. cbn match.
  destruct (key_init_ser k b [lit "k"] sym_params (lit "oct") (DSym VNone (VBytes (b64e key))) A B F4 K) as [KI SP];
    [intros m I; unfold sym_params; cbn [In] in *; tauto|vm_compute; reflexivity|].
  set (kw := map (fun kv => (fst kv, encb (snd kv))) b) in *.
  unfold kwarg at 1. rewrite (SP (lit "key")) by (unfold special; cbn [In]; tauto). unfold sym_new. cbn [as_bytes bind].
  assert (E : kwarg kw (lit "k") (VStr []) = VBytes (b64e key)).
  { unfold kwarg, kw. rewrite dget_map_snd. unfold b. rewrite dget_dset_same. cbn [option_map]. apply encb_ascii. exact Ab. }
  rewrite E, KI. cbn [bind truthy negb andb].
  assert (NE' : b64e key <> []) by (intro X; apply NE; apply b64e_nil; assumption).
  destruct (b64e key) as [|c t] eqn:Q; [contradiction|]. cbn [as_bytes bind py_bytes]. rewrite <- Q, b64d_b64e by exact O. cbn [bind].
  unfold set_data, fields. cbn. rewrite Ky. reflexivity.
Qed.
