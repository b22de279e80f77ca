#!/usr/bin/env python3
"""Transcribe the literal test vectors of /repo/flatdata-py/tests/test_data_access.py (read as text)
into theories/Conformance_DataAccess.v: an executable check of the *model* against the repo's own vectors."""
import re, ast
src = open('/repo/flatdata-py/tests/test_data_access.py').read().splitlines()
rd, wr = [], []
for l in src:
    m = re.match(r'\s+_test_reader\((b"[^"]*"), (\d+), (\d+), (True|False), (-?\d+)\)\s*$', l)
    if m:
        rd.append((list(ast.literal_eval(m[1])), int(m[2]), int(m[3]), m[4] == 'True', int(m[5])))
    m = re.match(r'\s+_test_writer\((b"[^"]*"), (\d+), (\d+), (True|False), (-?\d+)\)\s*$', l)
    if m:
        wr.append((list(ast.literal_eval(m[1])), int(m[2]), int(m[3]), m[4] == 'True', int(m[5])))
print(len(rd), len(wr), sum('_test_reader(b' in l for l in src), sum('_test_writer(b' in l for l in src))
def row(t):
    d, o, n, s, v = t
    return "([%s], %d, %d, %s, %s)" % ("; ".join(map(str, d)), o, n, "true" if s else "false", v if v >= 0 else "(%d)" % v)
with open('/verif/rocq/theories/Conformance_DataAccess.v', 'w') as f:
    f.write('''(** GENERATED by tools/gen_vectors.py from flatdata-py/tests/test_data_access.py: the repository's own
    test vectors evaluated on the model (tests of the model's faithfulness, not proofs of properties). *)
From Coq Require Import List ZArith Bool.
From Verif Require Import PyBase DataAccess.
Import ListNotations.
Local Open Scope Z_scope.

Definition read_ok (t : list Z * Z * Z * bool * Z) : bool :=
  let '(d, o, n, s, v) := t in
  match read_value d o n s with Ok r => r =? v | Err _ => false end.
Fixpoint eqbl (a b : list Z) : bool :=
  match a, b with [], [] => true | x :: a', y :: b' => (x =? y) && eqbl a' b' | _, _ => false end.
(** test_data_access.py: _test_writer writes into a zeroed bytearray of the same length. *)
Definition write_ok (t : list Z * Z * Z * bool * Z) : bool :=
  let '(d, o, n, s, v) := t in
  match write_value (zeros (List.length d)) o n s v with Ok r => eqbl r d | Err _ => false end.

Definition read_vectors : list (list Z * Z * Z * bool * Z) :=
 [''' + ";\n  ".join(map(row, rd)) + '''].
Definition write_vectors : list (list Z * Z * Z * bool * Z) :=
 [''' + ";\n  ".join(map(row, wr)) + '''].

Example read_vectors_pass : forallb read_ok read_vectors = true.
Proof. vm_compute. reflexivity. Qed.
Example write_vectors_pass : forallb write_ok write_vectors = true.
Proof. vm_compute. reflexivity. Qed.
''')
