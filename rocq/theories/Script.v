(** * Model of the programs in /repo/script: jwkutil.py, jwenc.py, jwdecrypt.py, peek.py, gen_symkey.py, jwk_create.py.
    jwk_export.py stops at its first import of a name that does not exist (line 6) and is not modelled.  The parser of the
    command line is not modelled: a program is a function of the parsed options. *)
From Coq Require Import ZArith List Bool.
From Verif Require Import Base Utf8 Codec Json Jwt Prims Elliptic Ecc Extra Jwk Jws Jwe Misc.
Import ListNotations.
Open Scope Z_scope.

(** An option of argparse that was not given is None; [if args.x:] also skips an empty text. *)
Definition oval (o : option ustr) : pval := match o with Some t => VStr t | None => VNone end.
Definition given (o : option ustr) : option ustr := match o with Some (c :: r) => Some (c :: r) | _ => None end.

(** What a program does: print, print nothing, call exit, or end with an exception. *)
Inductive run := Printed (lines : list pval) | Silent | Exit | Failed (e : exn).
Definition run_of {A} (m : res A) (k : A -> run) : run := match m with Ok a => k a | Raise e => Failed e end.

(** ** The functions of jwkutil.py *)

(** assign, jwkutil.py:28-35 (pairs of a type and a key), and jwenc.py:19-26, jwdecrypt.py:16-23 (keys with their kty). *)
Fixpoint assign_add {A} (m : list (ustr * list A)) (typ : ustr) (key : A) : list (ustr * list A) :=
  match m with
  | [] => [(typ, [key])]
  | (t, l) :: r => if zs_eqb t typ then (t, l ++ [key]) :: r else (t, l) :: assign_add r typ key
  end.
Definition assign {A} (lst : list (ustr * A)) : list (ustr * list A) := fold_left (fun m p => assign_add m (fst p) (snd p)) lst [].

(** sign, jwkutil.py:42-56 *)
Definition sign (P : prims) (E : entropy) (msg : pval) (keys : list jwk) (alg msgtype : pval) : res ustr :=
  s <- jws_init P msg [(lit "alg", alg)] None;;
  let s := if truthy msgtype then {| s_msg := s_msg s; s_dict := dset (s_dict s) (lit "typ") msgtype; s_jwk := s_jwk s; s_jwt := s_jwt s; s_key := s_key s |} else s in
  snd (sign_compact P E s (Some keys) []).

(** verify, jwkutil.py:59-61; verify_compact keeps the message of verify_compact_verbose (jws.py:507-517). *)
Definition verify (P : prims) (token : pval) (keys : list jwk) (allow_none : bool) (sigalg : pval) : res pval :=
  ' (m, _) <- snd (verify_compact P new_jws token (Some keys) allow_none sigalg);; Ok m.

(** encrypt, jwkutil.py:64-66 *)
Definition encrypt (P : prims) (R : draws) (msg : pval) (keys : list jwk) (alg enc : pval) : res ustr :=
  w <- jwe_new P msg [(lit "alg", alg); (lit "enc", enc)] None None;;
  ' (t, _) <- jwe_encrypt P R w (Some keys) [] [] None;; Ok t.

(** decrypt, jwkutil.py:69-71 *)
Definition new_jwe : jwe := {| w_msg := VNone; w_dict := []; w_jwk := None; w_epk := None; w_jwt := None |}.
Definition decrypt (P : prims) (sent : nat -> bytes) (msg : pval) (keys : list jwk) : res bytes :=
  ' (m, _) <- jwe_decrypt P sent new_jwe msg (Some keys) VNone [];; Ok m.

(** ** The programs.  [read] is open(name).read(), [imp] is RSA.importKey on a text, [stdin] the standard input. *)
Section Programs.
Variables (P : prims) (E : entropy) (R : draws) (sent : nat -> bytes).
Variable read : ustr -> res ustr.
Variable imp : ustr -> res rsakey.
Variable stdin : ustr.

(** [s.strip(chars)] *)
Fixpoint lstrip (chars s : list Z) : list Z :=
  match s with c :: r => if existsb (Z.eqb c) chars then lstrip chars r else s | [] => [] end.
Definition strip_chars (chars s : list Z) : list Z := rev (lstrip chars (rev (lstrip chars s))).

Definition opt_step (o : option ustr) (keys : list jwk) (f : ustr -> res (list jwk)) : res (list jwk) :=
  match given o with Some t => l <- f t;; Ok (keys ++ l) | None => Ok keys end.
Definition loaded (r : list jwk * option exn) : res (list jwk) := match r with (ks, None) => Ok ks | (_, Some e) => Raise e end.

(** The options of jwkutil.py, lines 75-98 (without the log file). *)
Record options := {
  o_sign : bool; o_verify : bool; o_encrypt : bool; o_decrypt : bool;
  o_file : option ustr; o_rsa : option ustr; o_hmac : option ustr; o_alg : option ustr; o_encalg : option ustr; o_encenc : option ustr;
  o_jwk : option ustr; o_jwks : option ustr; o_kid : option ustr; o_type : option ustr; o_url : option ustr; o_message : option ustr }.

(** The keys, jwkutil.py:105-126. *)
Definition util_keys (o : options) : res (list jwk) :=
  ks <- opt_step (o_rsa o) [] (fun n => r <- rsa_load read imp n;; k <- rsa_new P [(lit "kid", oval (o_kid o))] (ORsa r);; Ok [k]);;
  ks <- opt_step (o_hmac o) ks (fun t => k <- sym_new [] (VStr t);; Ok [k]);;
  ks <- opt_step (o_jwk o) ks (fun n => t <- read n;; v <- loads t;; k <- keyrep P v;; Ok [k]);;
  ks <- opt_step (o_jwks o) ks (fun n => t <- read n;; loaded (load_jwks P [] (VStr t)));;
  opt_step (o_url o) ks (fun u => loaded (load_from_url P [] u)).

(** The message, jwkutil.py:131-136 (strip("\n")), jwenc.py:102-107 (nothing stripped). *)
Definition message (file msg : option ustr) (chars : list Z) : res pval :=
  match given file with
  | Some n => t <- read n;; Ok (VStr (strip_chars chars t))
  | None => Ok (match msg with Some t => if zs_eqb t (lit "-") then VStr stdin else VStr t | None => VNone end)
  end.

(** [_msg, _res = decrypt(...)], jwkutil.py:147: a byte string of two octets is two numbers; any other length is a ValueError. *)
Definition two_values (b : bytes) : res (Z * Z) := match b with [x; y] => Ok (x, y) | _ => Raise EValueError end.

(** jwkutil.py:128-151 *)
Definition jwkutil (o : options) : run :=
  run_of (util_keys o) (fun keys =>
  match keys with
  | [] => Exit
  | _ =>
      run_of (message (o_file o) (o_message o) [10]) (fun msg =>
      if o_sign o then
        run_of (t <- sign P E msg keys (oval (o_alg o)) (oval (o_type o));;
                if o_encrypt o then encrypt P R (VStr t) keys (oval (o_encalg o)) (oval (o_encenc o)) else Ok t) (fun t => Printed [VStr t])
      else if o_encrypt o then run_of (encrypt P R msg keys (oval (o_encalg o)) (oval (o_encenc o))) (fun t => Printed [VStr t])
      else
        run_of (if o_decrypt o then b <- decrypt P sent msg keys;; ' (m, _) <- two_values b;; Ok (VInt m) else Ok msg) (fun m =>
        if o_verify o then run_of (verify P m keys false VNone) (fun v => Printed [v]) else Silent))
  end).

(** The options of jwenc.py, lines 38-60, that have an effect. *)
Record enc_options := {
  e_url : option ustr; e_jwk : option ustr; e_xurl : option ustr; e_xfile : option ustr; e_rsa : option ustr;
  e_alg : option ustr; e_enc : option ustr; e_file : option ustr; e_message : option ustr }.

(** The keys, jwenc.py:64-86.  load_x509_cert is called with the function lrequest in place of the URL: requests raises,
    load_x509_cert catches that and returns no keys (jwk.py:155-168).  [None]: no key option. *)
Definition enc_keys (o : enc_options) : option (res (list jwk)) :=
  let rsa := fun n => r <- rsa_load read imp n;; k <- rsa_new P [] (ORsa r);; _ <- serialize k false;; Ok [k] in
  match given (e_url o), given (e_jwk o), given (e_xurl o), given (e_xfile o), given (e_rsa o) with
  | Some u, _, _, _, _ => Some (loaded (load_from_url P [] u))
  | None, Some n, _, _, _ => Some (t <- read n;; loaded (load_jwks P [] (VStr t)))
  | None, None, Some _, _, _ => Some (Ok [])
  | None, None, None, Some n, _ => Some (rsa n)
  | None, None, None, None, Some n => Some (rsa n)
  | None, None, None, None, None => None
  end.

(** jwenc.py:64-111; [print(..., file=sys.stderr)] is not printing. *)
Definition jwenc_main (o : enc_options) : run :=
  match enc_keys o with
  | None => Exit
  | Some r =>
      run_of r (fun keys =>
      match given (e_enc o), given (e_alg o) with
      | Some e, Some a =>
          if negb (existsb (zs_eqb e) SUPPORTED_ENC) then Exit
          else if negb (existsb (zs_eqb a) SUPPORTED_ALG) then Exit
          else run_of (message (e_file o) (e_message o) []) (fun msg =>
               run_of (encrypt P R msg keys (VStr a) (VStr e)) (fun t => Printed [VStr t]))
      | _, _ => Exit
      end)
  end.

(** jwdecrypt.py:49-77 with one of the options -J, -j, -r (with -X the keys are pairs, with -x they are RSA objects: neither
    has the attributes of a key; see Misc2.v). *)
Record dec_options := { d_url : option ustr; d_jwk : option ustr; d_rsa : option ustr; d_file : option ustr; d_message : option ustr }.
Definition dec_keys (o : dec_options) : option (res (list jwk)) :=
  match given (d_url o), given (d_jwk o), given (d_rsa o) with
  | Some u, _, _ => Some (loaded (load_from_url P [] u))
  | None, Some n, _ => Some (t <- read n;; loaded (load_jwks P [] (VStr t)))
  | None, None, Some n => Some (r <- rsa_load read imp n;; k <- rsa_new P [] (ORsa r);; _ <- serialize k false;; Ok [k])
  | None, None, None => None
  end.
Definition jwdecrypt (o : dec_options) : run :=
  match dec_keys o with
  | None => Printed [VStr (lit "Needs encryption key")]
  | Some r =>
      run_of r (fun keys =>
      run_of (match given (d_file o) with Some n => t <- read n;; Ok (VStr (strip_chars [10; 13] t)) | None => Ok (oval (d_message o)) end) (fun msg =>
      run_of (decrypt P sent msg keys) (fun b => Printed [VBytes b])))
  end.
End Programs.

(** peek.py:8-18.  For a JWS in JSON form factory leaves no jwt: [None.headers] is an AttributeError. *)
Definition peek (token : ustr) : run :=
  run_of (jwe_factory (VStr token)) (fun w =>
  match w with
  | Some _ => Printed [VStr (lit "jwe")]
  | None =>
      run_of (factory (VStr token)) (fun s =>
      match s with
      | None => Silent
      | Some s =>
          match s_jwt s with
          | Some j => match nth_error (j_part j) 1 with Some p => Printed [VStr (lit "jws"); j_headers j; p] | None => Failed EIndexError end
          | None => Failed EAttributeError
          end
      end)
  end).

(** rndstr, gen_symkey.py:13-14; [rnd i] is the index drawn by random.choice for the i-th character. *)
Definition rnd_chars : list Z := lit "ABCDEFGHIJKLMNOPQRSTUVWXYZ0123456789".
Definition rndstr (rnd : nat -> nat) (size : Z) : ustr := map (fun i => nth (rnd i) rnd_chars 0) (seq 0 (Z.to_nat size)).
(** main, gen_symkey.py:17-27 *)
Definition gen_symkey (rnd : nat -> nat) (key_length : Z) (kid : option ustr) : run :=
  run_of (k <- sym_new [(lit "kid", oval kid)] (VStr (rndstr rnd key_length));;
          key <- serialize k true;;
          dumps true (VDict [(lit "keys", VList [key])])) (fun t => Printed [VStr t]).

(** create_and_store_rsa_key_pair, jwk_create.py:11-31: exportKey returns octets and the file is open for text, so the first
    write is a TypeError.  The state is the list of files written. *)
Definition text_write (files : list (ustr * ustr)) (name : ustr) (v : pval) : list (ustr * ustr) * res unit :=
  let files := dset files name [] in
  match v with VStr t => (dset files name t, Ok tt) | _ => (files, Raise ETypeError) end.
Definition create_and_store (files : list (ustr * ustr)) (keyfile : ustr) (pem : bool -> bytes) : list (ustr * ustr) * res unit :=
  let '(files, r) := text_write files (keyfile ++ lit ".key") (VBytes (pem true)) in
  match r with Raise e => (files, Raise e) | Ok _ => text_write files (keyfile ++ lit ".pub") (VBytes (pem false)) end.
