(** * The module self-test of PBKDF2.py *)
From Coq Require Import ZArith List Bool Lia.
From Verif Require Import Base BaseProofs Codec CodecProofs Utf8 Prims Inst Pbkdf2 Pbkdf2Proofs Pbkdf2Proofs2 SmallProofs.
Import ListNotations.
Open Scope Z_scope.

(** [a == b] of Python 2: a str is decoded as ASCII when compared with a text. *)
Definition py2_eq (a b : pval) : bool :=
  match a, b with
  | VBytes x, VBytes y | VStr x, VStr y => zs_eqb x y
  | VBytes x, VStr y | VStr y, VBytes x => ascii x && zs_eqb x y
  | _, _ => false
  end.
(** A step of the test; RuntimeError is EException. *)
Definition expect (r : res pval) (expected : pval) : res unit := x <- r;; if py2_eq x expected then Ok tt else Raise EException.
(** [x += f.read(n)] for each n. *)
Fixpoint reads_of (P : prims) (o : option pbkdf2) (ns : list Z) : res (list pval) :=
  match ns with
  | [] => Ok []
  | n :: r => let (o, x) := read P o n in v <- x;; l <- reads_of P o r;; Ok (v :: l)
  end.
Definition str (v : python) (s : bytes) : pval := match v with Py2 => VBytes s | Py3 => VStr s end.
Definition xs (n : nat) : bytes := repeat 88 n.
Definition greek : ustr := [921; 969; 945; 957; 957; 951; 962].
(** test_pbkdf2, PBKDF2.py:277-355.  (On Python 3 the first construction raises, so strings of the results are never compared.) *)
Definition test_pbkdf2 (P : prims) (v : python) : res unit :=
  let new pw salt n := pb_new v (str v pw) (str v salt) (VInt n) in
  let rd pw salt n len := (o <- new pw salt n;; snd (read P (Some o) len)) in
  let hx pw salt n len := (o <- new pw salt n;; h <- snd (hexread P (Some o) len);; Ok (VBytes h)) in
  let cr word salt it := (h <- crypt P v (0, 0, 0) word (str v salt) it;; Ok (VBytes h)) in
  _ <- expect (rd (lit "password") (lit "ATHENA.MIT.EDUraeburn") 1 16) (VBytes (z2be 16 0xcdedb5281bb2f801565a1122b2563515));;
  _ <- expect (hx (lit "password") (lit "ATHENA.MIT.EDUraeburn") 1200 32) (str v (lit "5c08eb61fdf71e4e4ec3cf6ba1f5512ba7e52ddbc5e5142f708a31e2e62b1e13"));;
  _ <- expect (hx (xs 64) (lit "pass phrase equals block size") 1200 32) (str v (lit "139c30c0966bc32ba55fdbf212530ac9c5ec59f1a452f5cc9ad940fea0598ed1"));;
  _ <- expect (hx (xs 65) (lit "pass phrase exceeds block size") 1200 32) (str v (lit "9ccad6d468770cd51b10e6a68721be611a8b4d282601db3b36be9246915ec82a"));;
  _ <- (o <- new (lit "kickstart") (lit "workbench") 256;; l <- reads_of P (Some o) [17; 17; 1; 2; 3];; e <- rd (lit "kickstart") (lit "workbench") 256 40;; expect (joined l) e);;
  _ <- expect (cr (str v (lit "cloadm")) (lit "exec") VNone) (str v (lit "$p5k2$$exec$r1EWMCMk7Rlv3L/RNcFXviDefYa0hlql"));;
  _ <- expect (cr (str v (lit "gnu")) (lit "$p5k2$c$u9HvcT4d$.....") VNone) (str v (lit "$p5k2$c$u9HvcT4d$Sd1gwSVCLZYAuqZ25piRnbBEoAesaa/g"));;
  _ <- expect (cr (str v (lit "dcl")) (lit "tUsch7fU") (VInt 13)) (str v (lit "$p5k2$d$tUsch7fU$nqDkaxMDOFBeJsTSfABsyn.PYUXilHwL"));;
  expect (cr (VStr greek) (lit "$p5k2$$KosHgqNo$9mjN8gqjt02hDoP0c2J0ABtLIwtot8cQ") VNone) (str v (lit "$p5k2$$KosHgqNo$9mjN8gqjt02hDoP0c2J0ABtLIwtot8cQ")).

Lemma hex_text_high : forall o k x, ascii o = true -> (k < length o)%nat -> nth (2 * k) (hex_text o) 0 = x -> 48 <= x <= 55.
Proof.
  induction o as [|c o IH]; intros k x A L E; [cbn [length] in L; lia|]. unfold ascii in A. cbn [forallb] in A. apply andb_true_iff in A. destruct A as [A1 A2]. unfold hex_text in E. cbn [flat_map app] in E. fold (hex_text o) in E.
  destruct k as [|k].
  - cbn in E. subst x. assert (C : 0 <= c / 16 < 8) by (apply andb_true_iff in A1; destruct A1 as [B1 B2]; apply Z.leb_le in B1; apply Z.ltb_lt in B2; split; [apply Z.div_pos; lia|apply Z.div_lt_upper_bound; lia]).
    clear -C. remember (c / 16) as q. clear Heqq. assert (D : q = 0 \/ q = 1 \/ q = 2 \/ q = 3 \/ q = 4 \/ q = 5 \/ q = 6 \/ q = 7) by lia. destruct D as [->|[->|[->|[->|[->|[->|[->| ->]]]]]]]; vm_compute; split; discriminate.
  - replace (2 * S k)%nat with (S (S (2 * k))) in E by lia. cbn [nth] in E. apply (IH k x A2); [cbn [length] in L; lia|exact E].
Qed.

(** The second test never succeeds, whatever HMAC computes: with more than one iteration hexread returns only digits of
    ASCII octets. *)
Theorem second_test_fails : forall P, hmac_law P -> forall s, pb_new Py2 (VBytes (lit "password")) (VBytes (lit "ATHENA.MIT.EDUraeburn")) (VInt 1200) = Ok s ->
  snd (hexread P (Some s) 32) <> Ok (lit "5c08eb61fdf71e4e4ec3cf6ba1f5512ba7e52ddbc5e5142f708a31e2e62b1e13").
Proof.
  intros P HM s N. pose proof (hexread_value P HM _ _ _ _ s [] 32 N (Forall_nil _)) as H. cbn [state_after fold_left fold_right] in H.
  unfold state_after in H. cbn [fold_left] in H. rewrite H by lia. clear H. cbn [snd].
  assert (I : b_iter s = 1200) by (vm_compute in N; injection N as <-; reflexivity). rewrite I. change (1200 =? 1) with false. cbn [orb].
  cbv zeta. match goal with |- (if ascii ?o then _ else _) <> _ => destruct (ascii o) eqn:A; [|discriminate]; assert (L : length o = 32%nat) by (rewrite map_length, seq_length; reflexivity); generalize dependent o end.
  intros o A L H. injection H as H. pose proof (hex_text_high o 2 101 A) as X. rewrite L in X. rewrite H in X. specialize (X ltac:(lia) eq_refl). lia.
Qed.
Theorem selftest_never : forall P, hmac_law P -> forall v, exists e, test_pbkdf2 P v = Raise e.
Proof.
  intros P HM [|]; unfold test_pbkdf2; cbv zeta.
  - destruct (expect (o <- pb_new Py2 (str Py2 (lit "password")) (str Py2 (lit "ATHENA.MIT.EDUraeburn")) (VInt 1);; snd (read P (Some o) 16)) _) as [u|e]; [|eexists; reflexivity]. cbn [bind].
    cbn [str]. destruct (pb_new Py2 (VBytes (lit "password")) (VBytes (lit "ATHENA.MIT.EDUraeburn")) (VInt 1200)) as [s|e] eqn:N; [|vm_compute in N; discriminate N].
    pose proof (second_test_fails P HM s N) as F. cbn [bind]. unfold expect at 1. destruct (snd (hexread P (Some s) 32)) as [h|e]; [|eexists; reflexivity]. cbn [bind].
    assert (Q : py2_eq (VBytes h) (VBytes (lit "5c08eb61fdf71e4e4ec3cf6ba1f5512ba7e52ddbc5e5142f708a31e2e62b1e13")) = false).
    { cbn [py2_eq]. apply zs_eqb_neq. intros ->. apply F. reflexivity. }
    rewrite Q. eexists. reflexivity.
  - exists ETypeError. reflexivity.
Qed.
