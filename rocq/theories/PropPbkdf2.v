(** * Properties C88-C91, C146-C149: PBKDF2.py.
    [U], [T] and [stream] (Pbkdf2Proofs) spell out PKCS#5 v2: [U pw salt i j] is U_{j+1} of block [i], [T pw salt c i] the 20
    octets of block [i], [stream pw salt c k] the octet at position [k] of T_1 T_2 ...; they do not mention the code.
    [reads o ns] are the results of reading [ns] octets one after the other, [taken] their concatenation. *)
From Coq Require Import ZArith List Bool Lia.
From Verif Require Import Base Utf8 Codec Prims Inst Pbkdf2 Pbkdf2Proofs Pbkdf2Proofs2.
Import ListNotations.
Open Scope Z_scope.

(** C88 *)
Theorem C88_one_stream : forall P, hmac_law P -> forall v pw salt iters s ns, pb_new v pw salt iters = Ok s ->
  exists m, taken (reads P (Some s) ns) = map (stream P (b_pw s) (b_salt s) (Z.to_nat (b_iter s))) (seq 0 m).
Proof. exact one_stream. Qed.
Print Assumptions C88_one_stream.
Theorem C88_sizes : forall P, hmac_law P -> forall v pw salt iters s ns, pb_new v pw salt iters = Ok s ->
  Forall (fun n => 0 <= n) ns -> fold_right Z.add 0 ns <= 20 * 0xffffffff ->
  Forall2 (fun n r => exists v, r = Ok v /\ Z.of_nat (length (chars v)) = n) ns (reads P (Some s) ns) /\
  taken (reads P (Some s) ns) = map (stream P (b_pw s) (b_salt s) (Z.to_nat (b_iter s))) (seq 0 (Z.to_nat (fold_right Z.add 0 ns))).
Proof. exact read_sizes. Qed.
Print Assumptions C88_sizes.
Theorem C88_split : forall P, hmac_law P -> forall v pw salt iters s a b, pb_new v pw salt iters = Ok s -> 0 <= a -> 0 <= b -> a + b <= 20 * 0xffffffff ->
  exists x y z, reads P (Some s) [a; b] = [Ok x; Ok y] /\ reads P (Some s) [a + b] = [Ok z] /\ chars x ++ chars y = chars z.
Proof. exact read_twice. Qed.
Print Assumptions C88_split.
Definition sample : pbkdf2 := {| b_pw := lit "password"; b_salt := lit "salt"; b_iter := 1; b_num := 0; b_buf := VBytes [] |}.
(** The first octets are those of RFC 6070. *)
Example C88_ex : hmac_law std /\ pb_new Py2 (VBytes (lit "password")) (VBytes (lit "salt")) (VInt 1) = Ok sample /\
  map (fun r => match r with Ok v => chars v | Raise _ => [] end) (reads std (Some sample) [3; 0; 20; 2]) =
    [[12; 96; 200]; []; [15; 150; 31; 14; 113; 243; 169; 181; 36; 175; 96; 18; 6; 47; 224; 55; 166; 224; 240; 235]; [148; 254]].
Proof. split; [exact std_hmac_law|]. vm_compute. repeat split; reflexivity. Qed.

(** C89 *)
Theorem C89_block : forall P, hmac_law P -> forall s i, bytes_ok (b_pw s) = true -> bytes_ok (b_salt s) = true -> 1 <= b_iter s -> 1 <= i <= 0xffffffff ->
  exists b, block P s i = Ok b /\
    chars b = map (fun k => fold_right Z.lxor 0 (map (fun j => nth k (U P (b_pw s) (b_salt s) i j) 0) (seq 0 (Z.to_nat (b_iter s))))) (seq 0 20).
Proof. intros P HM s i A B C D. destruct (block_spec P HM s i A B C D) as (b & E & F & _). exists b. split; [exact E|exact F]. Qed.
Print Assumptions C89_block.
(** RFC 6070, two iterations. *)
Example C89_ex : match block std {| b_pw := lit "password"; b_salt := lit "salt"; b_iter := 2; b_num := 0; b_buf := VBytes [] |} 1 with Ok v => chars v | Raise _ => [] end =
  [234; 108; 1; 77; 199; 45; 111; 140; 205; 30; 217; 42; 206; 29; 65; 240; 216; 222; 137; 87].
Proof. vm_compute. reflexivity. Qed.

(** C90: whatever crypt returns on Python 2 is its own hash, whatever count is given ... *)
Theorem C90_again_partial : forall P, hmac_law P -> forall r r' word salt iters iters' h,
  crypt P Py2 r word salt iters = Ok h -> crypt P Py2 r' word (VBytes h) iters' = Ok h.
Proof. exact crypt_again. Qed.
Print Assumptions C90_again_partial.
(** ... it returns for ASCII words and admissible salts exactly if the count is 1 or the 24 octets happen to be below 128 ... *)
Theorem C90_result_partial : forall P, hmac_law P -> forall r word salt iters, ascii word = true -> forallb salt_char salt = true ->
  iters = VNone \/ (exists n, iters = VInt n /\ 1 <= n < 2 ^ 63) ->
  crypt P Py2 r (VBytes word) (VBytes salt) iters =
    (let n := match iters with VInt n => n | _ => 400 end in
     let s := lit "$p5k2$" ++ (if n =? 400 then [] else percent_x n) ++ 36 :: salt in
     let o := map (stream P word s (Z.to_nat n)) (seq 0 24) in
     if (n =? 1) || ascii o then Ok (s ++ 36 :: map (tr_chars 46 47) (b64encode o)) else Raise EUnicodeEncodeError).
Proof. exact crypt_result. Qed.
Print Assumptions C90_result_partial.
(** ... so that most calls raise. *)
Theorem C90_refuted : exists P word salt iters, hmac_law P /\ ascii word = true /\ forallb salt_char salt = true /\ 1 <= iters < 2 ^ 63 /\
  forall r, crypt P Py2 r (VBytes word) (VBytes salt) (VInt iters) = Raise EUnicodeEncodeError.
Proof.
  exists std, (lit "password"), (lit "salt"), 2. split; [exact std_hmac_law|]. split; [reflexivity|]. split; [reflexivity|]. split; [split; [discriminate|reflexivity]|].
  intro r. vm_compute. reflexivity.
Qed.
Print Assumptions C90_refuted.
Example C90_ex : crypt std Py2 (0, 0, 0) (VBytes (lit "password")) (VBytes (lit "salt")) (VInt 1) = Ok (lit "$p5k2$1$salt$" ++ lit "g7fjsXcn6kUCNBufiBCHU.Jtbt3XmXiI").
Proof. vm_compute. reflexivity. Qed.

(** C91: no passphrase and salt of any kind makes an object on Python 3; Python 2 takes ASCII octets. *)
Theorem C91_refuted : exists pw, forall salt iters s, pb_new Py3 pw salt iters <> Ok s.
Proof. exists (VStr (lit "password")). intros. apply py3_never. Qed.
Print Assumptions C91_refuted.
Theorem C91_never_partial : forall pw salt iters, (forall t, pw = VStr t -> exists b, utf8_encode t = Ok b) -> pb_new Py3 pw salt iters = Raise ETypeError.
Proof. exact py3_type_error. Qed.
Print Assumptions C91_never_partial.
Theorem C91_py2_partial : forall pw salt n, ascii pw = true -> ascii salt = true -> 1 <= n < 2 ^ 63 ->
  pb_new Py2 (VBytes pw) (VBytes salt) (VInt n) = Ok {| b_pw := pw; b_salt := salt; b_iter := n; b_num := 0; b_buf := VBytes [] |}.
Proof. exact py2_constructs. Qed.
Print Assumptions C91_py2_partial.
Example C91_ex : ascii (lit "password") = true /\ utf8_encode (lit "password") = Ok (lit "password") /\
  pb_new Py3 (VStr (lit "password")) (VStr (lit "salt")) (VInt 1000) = Raise ETypeError /\ pb_new Py3 (VBytes (lit "password")) (VBytes (lit "salt")) (VInt 1000) = Raise ETypeError /\
  pb_new Py2 (VBytes [200]) (VBytes (lit "salt")) (VInt 1000) = Raise EUnicodeDecodeError.
Proof. vm_compute. repeat split; reflexivity. Qed.

(** C146 *)
Theorem C146_format : forall P, hmac_law P -> forall r word salt iters h, crypt P Py2 r word salt iters = Ok h -> exists n s t, 1 <= n /\
  h = lit "$p5k2$" ++ (if n =? 400 then [] else percent_x n) ++ [36] ++ s ++ [36] ++ t /\ forallb salt_char s = true /\ forallb salt_char t = true /\ length t = 32%nat.
Proof. exact crypt_format. Qed.
Print Assumptions C146_format.
Theorem C146_count : forall n, 1 <= n -> percent_x n <> [] /\ from_hex (percent_x n) 0 = Ok n /\ forallb hex_char (percent_x n) = true.
Proof. exact percent_spec. Qed.
Print Assumptions C146_count.
Theorem C146_one_iteration : forall P, hmac_law P -> forall r word salt, ascii word = true -> forallb salt_char salt = true ->
  exists h, crypt P Py2 r (VBytes word) (VBytes salt) (VInt 1) = Ok h.
Proof. exact crypt_one. Qed.
Print Assumptions C146_one_iteration.
Example C146_ex : percent_x 1000 = lit "3e8" /\ forallb salt_char (lit "ab./XYZ09") = true /\ forallb salt_char (lit "a$b") = false.
Proof. vm_compute. repeat split; reflexivity. Qed.

(** C147 *)
Theorem C147_python3 : forall P r word salt iters h, crypt P Py3 r word salt iters <> Ok h.
Proof. exact crypt_py3. Qed.
Print Assumptions C147_python3.
Example C147_ex : crypt std Py3 (1, 2, 3) (VStr (lit "password")) (VStr (lit "salt")) (VInt 1) = Raise ETypeError.
Proof. vm_compute. reflexivity. Qed.

(** C148 *)
Theorem C148_generated_salt : forall a b c, 0 <= a < 65536 -> 0 <= b < 65536 -> 0 <= c < 65536 ->
  exists s, makesalt Py2 (a, b, c) = Ok (VBytes s) /\ forallb salt_char s = true /\ length s = 8%nat.
Proof. exact made_salt. Qed.
Print Assumptions C148_generated_salt.
Theorem C148_crypt : forall P a b c word iters, 0 <= a < 65536 -> 0 <= b < 65536 -> 0 <= c < 65536 ->
  exists s, forallb salt_char s = true /\ length s = 8%nat /\ crypt P Py2 (a, b, c) word VNone iters = crypt P Py2 (a, b, c) word (VBytes s) iters.
Proof. exact crypt_none. Qed.
Print Assumptions C148_crypt.
Example C148_ex : makesalt Py2 (1, 512, 65535) = Ok (VBytes (lit "AQAAAv//")).
Proof. vm_compute. reflexivity. Qed.

(** C149: [at_pos s k] holds of the object after [k] octets were read. *)
Theorem C149_step : forall P, hmac_law P -> forall s k n, at_pos P s k ->
  (exists s' v m, read P (Some s) n = (Some s', Ok v) /\ at_pos P s' (k + m) /\ b_pw s' = b_pw s /\ b_salt s' = b_salt s /\ b_iter s' = b_iter s /\
     chars v = map (stream P (b_pw s) (b_salt s) (Z.to_nat (b_iter s))) (seq k m) /\ (0 <= n -> m = Z.to_nat n) /\
     (n < 0 -> Z.of_nat m = Z.max 0 (Z.of_nat (length (chars (b_buf s))) + n)) /\ (typed (b_iter s =? 1) v \/ v = VBytes [])) \/
  (read P (Some s) n = (Some s, Raise EOverflowError) /\ 20 * 0xffffffff < Z.of_nat k + n).
Proof. exact read_step. Qed.
Print Assumptions C149_step.
Theorem C149_fresh : forall P v pw salt iters s, pb_new v pw salt iters = Ok s -> at_pos P s 0.
Proof. exact fresh. Qed.
Print Assumptions C149_fresh.
Theorem C149_closed : forall P o n, snd (read P (close o) n) = Raise EValueError.
Proof. reflexivity. Qed.
Print Assumptions C149_closed.
(** At the last block: what is left may be read, one octet more not. *)
Definition spent : pbkdf2 := {| b_pw := lit "password"; b_salt := lit "salt"; b_iter := 1; b_num := 0xffffffff; b_buf := VBytes [7; 8] |}.
Example C149_ex : snd (read std (Some spent) 2) = Ok (VBytes [7; 8]) /\ read std (Some spent) 3 = (Some spent, Raise EOverflowError) /\
  snd (read std (Some spent) (-1)) = Ok (VBytes [7]) /\ at_pos std sample 0.
Proof. split; [reflexivity|]. split; [reflexivity|]. split; [reflexivity|]. apply (fresh std Py2 (VBytes (lit "password")) (VBytes (lit "salt")) (VInt 1)). reflexivity. Qed.
