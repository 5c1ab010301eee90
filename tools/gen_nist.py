#!/usr/bin/env python3
"""Writes rocq/theories/Nist.v: soundness of the tabulated curves (needs Certs.v, tools/noroot.json)."""
import json, os
from domains import domains
here = os.path.dirname(os.path.abspath(__file__))
noroot = json.load(open(os.path.join(here, 'noroot.json')))
certs = {int(n) for n, _, _ in json.load(open(os.path.join(here, 'certs.json')))}
D = domains()
o = ['''(** Generated by tools/gen_nist.py: the parameters of the built-in curves are sound. *)
From Coq Require Import ZArith Znumtheory List Lia.
From Verif Require Import Base Zp EcGroup EcSpec Elliptic EcProofs Pock PockCheck OrderCheck Certs Ecc EccProofs.
Open Scope Z_scope.

Definition dummy_curve : curve := {| c_bits := 0; c_p := 0; c_N := 0; c_a := 0; c_b := 0; c_G := (0, 0) |}.

Lemma check_noroot_curve : forall a b n t, check_noroot a b n t = true -> prime n -> no_two_torsion n a b.
Proof. intros a b n t H P x. apply (check_noroot_ok a b n t H P). Qed.
''']
for b in (192, 224, 256, 384, 521):
    if D[b][1] not in certs: continue
    t = ', '.join(noroot[str(b)])
    o.append(f'''(** ** the {b}-bit curve *)
Definition P{b} : curve := Eval vm_compute in match nist_curve {b} with Ok c => c | Raise _ => dummy_curve end.
Lemma P{b}_eq : nist_curve {b} = Ok P{b}. Proof. vm_compute. reflexivity. Qed.
Lemma P{b}_good : good_curve (c_p P{b}) (- c_a P{b}) (- c_b P{b}).
Proof. split; [exact prime_p{b}|]. split; [vm_compute; reflexivity|]. vm_compute. discriminate. Qed.
Lemma P{b}_no2 : no_two_torsion (c_p P{b}) (- c_a P{b}) (- c_b P{b}).
Proof. apply check_noroot_curve with (t := ({t})); [vm_compute; reflexivity|exact prime_p{b}]. Qed.
Lemma P{b}_G : element (Some (c_G P{b})) (c_a P{b}) (c_b P{b}) (c_p P{b}) = true.
Proof. vm_compute. reflexivity. Qed.
Lemma P{b}_order : gmul (c_p P{b}) (- c_a P{b}) (c_N P{b}) (den (c_p P{b}) (Some (c_G P{b}))) = GO (c_p P{b}).
Proof.
  apply (check_order_ok (c_a P{b}) (c_b P{b}) (c_p P{b}) (fst (c_G P{b})) (snd (c_G P{b})) (c_N P{b}) P{b}_good P{b}_no2 P{b}_G).
  vm_compute. reflexivity.
Qed.
Lemma P{b}_sound : sound_curve P{b}.
Proof.
  split; [exact P{b}_good|exact P{b}_no2|exact prime_n{b}|vm_compute; reflexivity|exact P{b}_G| |exact P{b}_order|vm_compute; reflexivity|vm_compute; reflexivity|vm_compute; reflexivity].
  split; (split; [vm_compute; discriminate|vm_compute; reflexivity]).
Qed.
''')
open(os.path.join(here, '../rocq/theories/Nist.v'), 'w').write('\n'.join(o))
