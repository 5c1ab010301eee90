(** * repr can be read back: the text of a value without floats determines it, so dicthash tells dictionaries apart *)
From Coq Require Import ZArith List Bool Lia Permutation.
From Verif Require Import Base BaseProofs Utf8 Codec CodecProofs Json JsonProofs Jwt Prims Elliptic Ecc KeyWrap Extra Jwk Jws Jwe Misc Script ScriptProofs3 Misc2 Misc2Proofs.
Import ListNotations.
Open Scope Z_scope.

Definition code_point (c : Z) : Prop := 0 <= c < 1114112.

(** Values without floats, all of whose characters are code points and whose bytes are octets. *)
Inductive reprable : pval -> Prop :=
| rp_none : reprable VNone
| rp_bool : forall b, reprable (VBool b)
| rp_int : forall z, reprable (VInt z)
| rp_str : forall s, Forall code_point s -> reprable (VStr s)
| rp_bytes : forall b, Forall (fun c => 0 <= c < 256) b -> reprable (VBytes b)
| rp_list : forall l, (forall x, In x l -> reprable x) -> reprable (VList l)
| rp_dict : forall d, (forall n x, In (n, x) d -> Forall code_point n) -> (forall n x, In (n, x) d -> reprable x) -> reprable (VDict d).

Lemma hex_digit_inj : forall a b, 0 <= a < 16 -> 0 <= b < 16 -> hex_digit a = hex_digit b -> a = b.
Proof. intros a b A B H. pose proof (unhex_hex a A) as X. rewrite H, (unhex_hex b B) in X. congruence. Qed.
Lemma hex2_inj : forall c d X Y, 0 <= c < 256 -> 0 <= d < 256 -> hex2 c ++ X = hex2 d ++ Y -> c = d /\ X = Y.
Proof.
  intros c d X Y C D H. unfold hex2 in H. cbn [app] in H. injection H as H1 H2 H3. apply hex_digit_inj in H1; [|lia|lia]. apply hex_digit_inj in H2; [|lia|lia].
  split; [lia|exact H3].
Qed.
Lemma hex4_inj : forall c d X Y, 0 <= c < 65536 -> 0 <= d < 65536 -> hex4 c ++ X = hex4 d ++ Y -> c = d /\ X = Y.
Proof.
  intros c d X Y C D H. unfold hex4 in H. cbn [app] in H. injection H as H1 H2 H3 H4 H5.
  apply hex_digit_inj in H1; [|lia|lia]. apply hex_digit_inj in H2; [|lia|lia]. apply hex_digit_inj in H3; [|lia|lia]. apply hex_digit_inj in H4; [|lia|lia].
  split; [lia|exact H5].
Qed.

(** What a character becomes is itself or a backslash and one of six things. *)
Inductive shape (q c : Z) : list Z -> Prop :=
| sh_self : c <> q -> c <> 92 -> shape q c [c]
| sh_back : c = q \/ c = 92 -> shape q c [92; c]
| sh_t : c = 9 -> shape q c [92; 116]
| sh_n : c = 10 -> shape q c [92; 110]
| sh_r : c = 13 -> shape q c [92; 114]
| sh_x : c < 256 -> shape q c (92 :: 120 :: hex2 c)
| sh_u : c < 65536 -> shape q c (92 :: 117 :: hex4 c)
| sh_U : shape q c (92 :: 85 :: hex4 (c / 65536) ++ hex4 (c mod 65536)).
Lemma repr_c_shape : forall pr q c, shape q c (repr_c pr q c).
Proof.
  intros pr q c. unfold repr_c.
  destruct ((c =? q) || (c =? 92)) eqn:E0; [apply sh_back; lia|].
  destruct (Z.eqb_spec c 9); [apply sh_t; assumption|]. destruct (Z.eqb_spec c 10); [apply sh_n; assumption|]. destruct (Z.eqb_spec c 13); [apply sh_r; assumption|].
  destruct ((c <? 32) || (c =? 127)) eqn:E1; [apply sh_x; lia|].
  destruct ((c <? 127) || pr c); [apply sh_self; lia|].
  destruct (Z.ltb_spec c 256); [apply sh_x; assumption|]. destruct (Z.ltb_spec c 65536); [apply sh_u; assumption|]. apply sh_U.
Qed.
Lemma repr_c_inj : forall pr q c d X Y, q = 39 \/ q = 34 -> code_point c -> code_point d -> repr_c pr q c ++ X = repr_c pr q d ++ Y -> c = d /\ X = Y.
Proof.
  intros pr q c d X Y Q C D H. unfold code_point in *.
  pose proof (repr_c_shape pr q c) as SC. pose proof (repr_c_shape pr q d) as SD. revert SC SD H. generalize (repr_c pr q c) as tc. generalize (repr_c pr q d) as td.
  intros td tc SC SD H.
  destruct SC; destruct SD; cbn [app] in H; try (exfalso; injection H; intros; lia); try (injection H; intros; split; [lia|assumption]).
  - assert (E : hex2 c ++ X = hex2 d ++ Y) by congruence. apply hex2_inj in E; [exact E|lia|lia].
  - assert (E : hex4 c ++ X = hex4 d ++ Y) by congruence. apply hex4_inj in E; [exact E|lia|lia].
  - assert (E : (hex4 (c / 65536) ++ hex4 (c mod 65536)) ++ X = (hex4 (d / 65536) ++ hex4 (d mod 65536)) ++ Y) by congruence.
    rewrite <- !app_assoc in E. apply hex4_inj in E; [|lia|lia]. destruct E as [E1 E]. apply hex4_inj in E; [|lia|lia]. destruct E as [E2 E]. split; [lia|exact E].
Qed.
Lemma repr_c_head : forall pr q c X Y, q = 39 \/ q = 34 -> repr_c pr q c ++ X <> q :: Y.
Proof.
  intros pr q c X Y Q. pose proof (repr_c_shape pr q c) as SC. revert SC. generalize (repr_c pr q c) as tc. intros tc SC H.
  destruct SC; cbn [app] in H; injection H; intros; lia.
Qed.
Lemma body_inj : forall pr q s t X Y, q = 39 \/ q = 34 -> Forall code_point s -> Forall code_point t ->
  concat (map (repr_c pr q) s) ++ q :: X = concat (map (repr_c pr q) t) ++ q :: Y -> s = t /\ X = Y.
Proof.
  intros pr q s t X Y Q FS. revert t. induction FS as [|c s C FS IH]; intros t FT H.
  - destruct FT as [|d t D FT]; [cbn [map concat app] in H; split; [reflexivity|congruence]|].
    cbn [map concat] in H. rewrite <- app_assoc in H. cbn [app] in H. symmetry in H. destruct (repr_c_head _ _ _ _ _ Q H).
  - destruct FT as [|d t D FT]; cbn [map concat] in H; rewrite <- app_assoc in H.
    + cbn [app] in H. destruct (repr_c_head _ _ _ _ _ Q H).
    + rewrite <- app_assoc in H. apply repr_c_inj in H; [|exact Q|exact C|exact D]. destruct H as [-> H]. destruct (IH t FT H) as [-> ->]. split; reflexivity.
Qed.
Lemma quote_cases : forall s, quote_of s = 39 \/ quote_of s = 34.
Proof. intro s. unfold quote_of. destruct (_ && _); auto. Qed.
Theorem repr_str_inj : forall pr s t X Y, Forall code_point s -> Forall code_point t -> repr_str pr s ++ X = repr_str pr t ++ Y -> s = t /\ X = Y.
Proof.
  intros pr s t X Y FS FT H. unfold repr_str in H. cbv zeta in H. cbn [app] in H. injection H as Q H. rewrite <- Q in H. rewrite <- !app_assoc in H. cbn [app] in H.
  exact (body_inj pr (quote_of s) s t X Y (quote_cases s) FS FT H).
Qed.

(** Numbers end where no digit follows. *)
Lemma dec_inj : forall a b X Y, nfollow X -> nfollow Y -> dec a ++ X = dec b ++ Y -> a = b /\ X = Y.
Proof. intros a b X Y FX FY H. pose proof (jatom_dec a X FX) as J. rewrite H, (jatom_dec b Y FY) in J. injection J as E1 E2. auto. Qed.
Lemma dec_head : forall z, exists c r, dec z = c :: r /\ (c = 45 \/ 48 <= c <= 57).
Proof.
  intro z. unfold dec. destruct (Z.ltb_spec z 0); [exists 45, (dec_nat (- z)); auto|].
  destruct (dec_nat_spec z ltac:(lia)) as (_ & F & [[_ ->]|[_ (c & r & E & _)]]); [exists 48, []; split; [reflexivity|lia]|].
  exists c, r. split; [exact E|]. rewrite E in F. apply Forall_inv in F. cbn beta in F. apply digit_neq in F. lia.
Qed.

(** The first character says what kind of value it is. *)
Definition kind (v : pval) : Z :=
  match v with VNone => 78 | VBool true => 84 | VBool false => 70 | VInt _ => 48 | VFloat _ => 0 | VStr _ => 39 | VBytes _ => 98 | VList _ => 91 | VDict _ => 123 end.
Definition kind_of_head (c : Z) : Z := if (c =? 45) || (48 <=? c) && (c <=? 57) then 48 else if c =? 34 then 39 else c.
Lemma repr_head : forall pr v, reprable v -> exists c r, py_repr pr v = c :: r /\ kind_of_head c = kind v.
Proof.
  intros pr v R. destruct R as [|b|z|s F|b F|l F|d FN F].
  - eexists. eexists. split; reflexivity.
  - destruct b; eexists; eexists; split; reflexivity.
  - destruct (dec_head z) as (c & r & E & H). exists c, r. split; [exact E|]. unfold kind_of_head. cbn [kind]. destruct ((c =? 45) || _) eqn:B; [reflexivity|]. lia.
  - exists (quote_of s). eexists. split; [reflexivity|]. cbn [kind]. destruct (quote_cases s) as [-> | ->]; reflexivity.
  - exists 98. eexists. split; reflexivity.
  - exists 91. eexists. split; reflexivity.
  - exists 123. eexists. split; reflexivity.
Qed.

Definition closes (X : list Z) : Prop := match X with c :: _ => c = 44 \/ c = 93 \/ c = 125 \/ c = 41 | [] => True end.
Lemma closes_nfollow : forall X, closes X -> nfollow X.
Proof. intros [|c X] H; [exact I|]. cbn [closes] in H. unfold nfollow, is_digit. lia. Qed.

(** Items between separators, up to a closing bracket. *)
Lemma interc_inj : forall (A : Type) (f : A -> list Z) (good : A -> Prop) (e : Z) l m X Y,
  e <> 44 -> (forall X : list Z, closes (e :: X)) ->
  (forall a, In a l \/ In a m -> good a) ->
  (forall a, good a -> exists c r, f a = c :: r /\ c <> e) ->
  (forall a, In a l -> forall b, good b -> forall X Y, closes X -> closes Y -> f a ++ X = f b ++ Y -> a = b /\ X = Y) ->
  interc (lit ", ") (map f l) ++ e :: X = interc (lit ", ") (map f m) ++ e :: Y -> l = m /\ X = Y.
Proof.
  intros A f good e l. induction l as [|a l IH]; intros m X Y NE CL G HD INJ H.
  - destruct m as [|b m]; [cbn [map interc app] in H; split; [reflexivity|congruence]|]. exfalso.
    destruct (HD b (G b (or_intror (or_introl eq_refl)))) as (c & r & E & N). cbn [map interc app] in H. destruct m as [|b' m]; cbn [map interc] in H; rewrite E in H; cbn [app] in H; congruence.
  - destruct m as [|b m].
    + exfalso. destruct (HD a (G a (or_introl (or_introl eq_refl)))) as (c & r & E & N). cbn [map interc app] in H. destruct l as [|a' l]; cbn [map interc] in H; rewrite E in H; cbn [app] in H; congruence.
    + assert (Sep : forall T : list Z, closes (lit ", " ++ T)) by (intro T; left; reflexivity).
      assert (GB : good b) by (apply G; right; left; reflexivity).
      destruct l as [|a' l]; destruct m as [|b' m]; cbn [map interc] in H; rewrite <- ?app_assoc in H.
      * apply (INJ a (or_introl eq_refl) b GB) in H; [|apply CL|apply CL]. destruct H as [-> H]. split; [reflexivity|congruence].
      * apply (INJ a (or_introl eq_refl) b GB) in H; [|apply CL|apply Sep]. destruct H as [_ H]. exfalso. change (lit ", ") with [44; 32] in H. cbn [app] in H. injection H; intros; congruence.
      * apply (INJ a (or_introl eq_refl) b GB) in H; [|apply Sep|apply CL]. destruct H as [_ H]. exfalso. change (lit ", ") with [44; 32] in H. cbn [app] in H. injection H; intros; congruence.
      * apply (INJ a (or_introl eq_refl) b GB) in H; [|apply Sep|apply Sep]. destruct H as [-> H]. apply app_inv_head in H.
        assert (E : a' :: l = b' :: m /\ X = Y).
        { apply IH; [exact NE|exact CL| |exact HD| |exact H].
          - intros x [I|I]; apply G; [left|right]; right; exact I.
          - intros x I. apply INJ. right. exact I. }
        destruct E as [-> ->]. split; reflexivity.
Qed.

Theorem repr_inj : forall pr v w X Y, reprable v -> reprable w -> closes X -> closes Y -> py_repr pr v ++ X = py_repr pr w ++ Y -> v = w /\ X = Y.
Proof.
  intros pr v w X Y RV. revert w X Y. induction RV as [|b|z|s F|b F|l F IH|d FN F IH]; intros w X Y RW CX CY H.
  all: assert (K : kind w = kind w) by reflexivity.
  all: destruct (repr_head pr w RW) as (c & r & E & K1).
  all: match type of H with py_repr _ ?v ++ _ = _ => assert (RV : reprable v) by (constructor; assumption); destruct (repr_head pr v RV) as (c' & r' & E' & K2) end.
  all: assert (KK : c' = c) by (rewrite E, E' in H; cbn [app] in H; congruence); subst c'; rewrite K1 in K2; clear K.
  - destruct w as [|[]| | | | | |]; cbn [kind] in K2; try discriminate K2. split; [reflexivity|]. apply app_inv_head in H. exact H.
  - destruct b; destruct w as [|[]| | | | | |]; cbn [kind] in K2; try discriminate K2; (split; [reflexivity|]; apply app_inv_head in H; exact H).
  - destruct w as [|[]| | | | | |]; cbn [kind] in K2; try discriminate K2. cbn [py_repr] in H. apply dec_inj in H; [|apply closes_nfollow; exact CX|apply closes_nfollow; exact CY]. destruct H as [-> ->]. split; reflexivity.
  - destruct w as [|[]| | | | | |]; cbn [kind] in K2; try discriminate K2. inversion RW; subst. cbn [py_repr] in H. apply repr_str_inj in H; [|assumption|assumption]. destruct H as [-> ->]. split; reflexivity.
  - destruct w as [|[]| | | | | |]; cbn [kind] in K2; try discriminate K2. inversion RW as [| | | |? F'| |]; subst. cbn [py_repr] in H. unfold repr_bytes in H. cbn [app] in H. apply (f_equal (@tl Z)) in H. cbn [tl] in H.
    apply repr_str_inj in H.
    + destruct H as [-> ->]. split; reflexivity.
    + revert F. apply Forall_impl. intros a A. unfold code_point. lia.
    + revert F'. apply Forall_impl. intros a A. unfold code_point. lia.
  - destruct w as [|[]| | | | | |]; cbn [kind] in K2; try discriminate K2. inversion RW as [| | | | |? F'|]; subst. cbn [py_repr app] in H. injection H as H. rewrite <- !app_assoc in H. cbn [app] in H.
    apply (interc_inj pval (py_repr pr) reprable 93) in H.
    + destruct H as [-> ->]. split; reflexivity.
    + lia.
    + intros T. right; left; reflexivity.
    + intros x [I|I]; [exact (F x I)|exact (F' x I)].
    + intros x R. destruct (repr_head pr x R) as (c0 & r0 & E0 & K0). exists c0, r0. split; [exact E0|]. intros ->. destruct x as [|[]| | | | | |]; try discriminate K0.
    + intros x I y RY T U CT CU. exact (IH x I y T U RY CT CU).
  - destruct w as [|[]| | | | | |]; cbn [kind] in K2; try discriminate K2. inversion RW as [| | | | | |? FN' F']; subst. cbn [py_repr app] in H. injection H as H. rewrite <- !app_assoc in H. cbn [app] in H.
    apply (interc_inj (ustr * pval) _ (fun p => Forall code_point (fst p) /\ reprable (snd p)) 125) in H.
    + destruct H as [-> ->]. split; reflexivity.
    + lia.
    + intros T. right; right; left; reflexivity.
    + intros [n x] [I|I]; cbn [fst snd]; split; eauto.
    + intros [n x] _. exists (quote_of n). eexists. split; [reflexivity|]. destruct (quote_cases n) as [-> | ->]; discriminate.
    + intros [n x] I [n' x'] [FY RY] T U CT CU HH. cbn [fst snd] in FY, RY.
      change ((repr_str pr n ++ lit ": " ++ py_repr pr x) ++ T = (repr_str pr n' ++ lit ": " ++ py_repr pr x') ++ U) in HH. rewrite <- !app_assoc in HH.
      apply repr_str_inj in HH; [|exact (FN n x I)|exact FY]. destruct HH as [-> HH]. apply app_inv_head in HH.
      destruct (IH n' x I x' T U RY CT CU HH) as [-> ->]. split; reflexivity.
Qed.

(** ** dicthash *)
Lemma insert_perm : forall p l, Permutation (insert_item p l) (p :: l).
Proof.
  intros p l. induction l as [|q l IH]; cbn [insert_item]; [reflexivity|]. destruct (text_le _ _); [reflexivity|]. rewrite IH. apply perm_swap.
Qed.
Lemma sorted_is_perm : forall d, Permutation (sorted_items d) d.
Proof. induction d as [|p d IH]; cbn [sorted_items]; [reflexivity|]. rewrite insert_perm. constructor. exact IH. Qed.
Definition reprable_dict (d : dict) : Prop := forall n x, In (n, x) d -> Forall code_point n /\ reprable x.
Theorem repr_items_inj : forall pr d d', reprable_dict d -> reprable_dict d' -> repr_items pr d = repr_items pr d' -> d = d'.
Proof.
  intros pr d d' R R' H. unfold repr_items in H. injection H as H.
  apply (interc_inj (ustr * pval) _ (fun p => Forall code_point (fst p) /\ reprable (snd p)) 93 d d' [] []) in H.
  - exact (proj1 H).
  - lia.
  - intros T. right; left; reflexivity.
  - intros [n x] [I|I]; [exact (R n x I)|exact (R' n x I)].
  - intros p _. exists 40. eexists. split; [reflexivity|discriminate].
  - intros [n x] I [n' x'] [FN RY] T U CT CU HH. cbn [fst snd] in *. apply (f_equal (@tl Z)) in HH.
    change ((repr_str pr n ++ lit ", " ++ py_repr pr x ++ [41]) ++ T = (repr_str pr n' ++ lit ", " ++ py_repr pr x' ++ [41]) ++ U) in HH. rewrite <- !app_assoc in HH.
    apply repr_str_inj in HH; [|exact (proj1 (R n x I))|exact FN]. destruct HH as [-> HH]. apply app_inv_head in HH.
    apply repr_inj in HH; [|exact (proj2 (R n' x I))|exact RY|right; right; right; reflexivity|right; right; right; reflexivity].
    destruct HH as [-> HH]. apply app_inv_head in HH. subst. split; reflexivity.
Qed.
Theorem dicthash_tells : forall pr hash d d', (forall a b, hash a = hash b -> a = b) -> reprable_dict d -> reprable_dict d' ->
  dicthash pr hash d = dicthash pr hash d' -> Permutation d d'.
Proof.
  intros pr hash d d' INJ R R' H. unfold dicthash in H. apply INJ in H. apply repr_items_inj in H.
  - rewrite <- (sorted_is_perm d), H. apply sorted_is_perm.
  - intros n x I. apply R. apply (Permutation_in _ (sorted_is_perm d)). exact I.
  - intros n x I. apply R'. apply (Permutation_in _ (sorted_is_perm d')). exact I.
Qed.
(** The text of a key determines its dictionary. *)
Theorem key_str_tells : forall pr k k' t d d', to_dict k = Ok d -> to_dict k' = Ok d' -> reprable_dict d -> reprable_dict d' ->
  key_str pr k = Ok t -> key_str pr k' = Ok t -> d = d'.
Proof.
  intros pr k k' t d d' D D' R R' T T'. unfold key_str in T, T'. rewrite D in T. rewrite D' in T'. cbn [bind] in T, T'.
  rewrite <- T' in T. apply (f_equal (fun r => match r with Ok x => x | Raise _ => [] end)) in T. cbv beta iota in T.
  assert (E : VDict d = VDict d' /\ @nil Z = []).
  { apply (repr_inj pr (VDict d) (VDict d') [] []); [constructor; intros; eapply R; eassumption|constructor; intros; eapply R'; eassumption|exact I|exact I|].
    rewrite (app_nil_r (py_repr pr (VDict d))), (app_nil_r (py_repr pr (VDict d'))). exact T. }
  destruct E as [E _]. injection E as E. exact E.
Qed.

(** ** A list of numbers as the key of JWE_SYM *)
Theorem ints_never : forall P R d j objects msg l cek iv kid, (exists e, sym_decrypt_any P d j (AInts l) [] = Raise e) /\
  (exists e, sym_encrypt_any P R d objects msg (AInts l) cek iv kid = Raise e).
Proof.
  intros P R d j objects msg l cek iv kid. split.
  - unfold sym_decrypt_any. destruct l as [|a l]; cbn [is_nil]; [eexists; reflexivity|]. destruct (negb _); [eexists; reflexivity|]. destruct (part j 1); eexists; reflexivity.
  - unfold sym_encrypt_any. cbv zeta. destruct (jwenc _ _); [|eexists; reflexivity]. cbn [bind]. destruct (dict_get _ _); [|eexists; reflexivity]. cbn [bind].
    destruct (generate_key_and_iv _ _ _ _) as [[? ?]|]; [|eexists; reflexivity]. cbn [bind enc_octets]. destruct (intarr2str l); eexists; reflexivity.
Qed.

(** ** Line ends around a token in a file *)
Theorem x509_file : forall P sent read imp c n s pre post, n <> [] -> read n = Ok (pre ++ s ++ post) -> all_in [10; 13] pre -> all_in [10; 13] post -> clean_ends [10; 13] s ->
  jwdecrypt_x509 P sent read imp c (Some n) None = jwdecrypt_x509 P sent read imp c None (Some s).
Proof.
  intros P sent read imp c n s pre post N RD A B C. unfold jwdecrypt_x509. replace (given (Some n)) with (Some n) by (destruct n; [contradiction|reflexivity]).
  cbn [given]. rewrite RD. cbn [bind]. rewrite strip_around by assumption. reflexivity.
Qed.
