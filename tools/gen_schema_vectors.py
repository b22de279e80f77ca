#!/usr/bin/env python3
"""Transcribe the repository's generator test cases (test_cases/**/*.flatdata, read as text) and their expected normalised
schemas (flatdata-generator/tests/generators/flatdata_expectations) into theories/Conformance_GenFlatdata.v: an executable
check of the *model* of tree builder and schema renderer against the repository's own expectations.  The small parser here
is only a transcription aid."""
import re, os, sys
T = '/repo/test_cases'; E = '/repo/flatdata-generator/tests/generators/flatdata_expectations'
TOK = re.compile(r'\s+|/\*.*?\*/|//[^\n]*|(@\w+|[\w.]+|0x[0-9a-fA-F]+|-?\w+|[{}:;,<>()=])', re.S)
def tokens(s):
    out, i = [], 0
    while i < len(s):
        m = TOK.match(s, i); assert m, s[i:i+40]
        if m[1]: out.append(m[1])
        i = m.end()
    return out
class P:
    def __init__(self, t): self.t, self.i = t, 0
    def peek(self): return self.t[self.i] if self.i < len(self.t) else None
    def next(self): self.i += 1; return self.t[self.i-1]
    def eat(self, x): y = self.next(); assert x == y, (x, y, self.t[self.i-5:self.i+5])
    def opt(self, x):
        if self.peek() == x: self.i += 1; return True
        return False
q = lambda s: '"%s"' % s
lst = lambda l: "[" + "; ".join(l) + "]"
optN = lambda w: "None" if w is None else "(Some %s%%N)" % w
def schema(s):
    p = P(tokens(s)); nss = []
    while p.peek():
        p.eat("namespace"); name = p.next(); p.eat("{"); C, S, EN, A = [], [], [], []
        while not p.opt("}"):
            bound = []
            while p.opt("@bound_implicitly"):
                p.eat("("); n = p.next(); p.eat(":"); rs = [p.next()]
                while p.opt(","): rs.append(p.next())
                p.eat(")"); bound.append("(%s, %s)" % (q(n), lst(map(q, rs))))
            k = p.next()
            if k == "const":
                ty, n = p.next(), p.next(); p.eat("="); v = p.next(); p.eat(";"); C.append("PConst %s %s %s" % (q(n), q(ty), q(v)))
            elif k == "enum":
                n = p.next(); p.eat(":"); ty = p.next(); w = p.next() if p.opt(":") else None; p.eat("{"); vs = []
                while not p.opt("}"):
                    vn = p.next(); v = p.next() if p.opt("=") else None; p.opt(",")
                    vs.append("(%s, %s)" % (q(vn), "None" if v is None else "Some " + q(v)))
                EN.append("PEnum %s %s %s %s" % (q(n), q(ty), optN(w), lst(vs)))
            elif k == "struct":
                n = p.next(); p.eat("{"); fs = []
                while not p.opt("}"):
                    ds = []
                    while p.peek().startswith("@"):
                        d = p.next(); p.eat("("); x = p.next(); p.eat(")")
                        ds.append({"@range": "FRange", "@const": "FConst", "@optional": "FOptional"}[d] + " " + q(x))
                    fn = p.next(); p.eat(":"); ty = p.next(); w = p.next() if p.opt(":") else None; p.eat(";")
                    fs.append("PField %s %s %s %s" % (q(fn), lst(ds), q(ty), optN(w)))
                S.append("PStruct %s %s" % (q(n), lst(fs)))
            elif k == "archive":
                n = p.next(); p.eat("{"); rs = []
                while not p.opt("}"):
                    ds = []
                    while p.peek().startswith("@"):
                        d = p.next()
                        if d == "@optional": ds.append("ROptional")
                        else:
                            p.eat("("); src = p.next(); p.eat(","); dst = p.next(); p.eat(")"); a, b = src.rsplit(".", 1)
                            ds.append("RExplicit %s %s %s" % (q(a), q(b), q(dst)))
                    rn = p.next(); p.eat(":"); t = p.next()
                    if t == "raw_data": ty = "TRaw"
                    elif t == "vector": p.eat("<"); ty = "(TVector %s)" % q(p.next()); p.eat(">")
                    elif t == "multivector":
                        p.eat("<"); w = p.next(); ts = []
                        while p.opt(","): ts.append(q(p.next()))
                        p.eat(">"); ty = "(TMulti %s%%N %s)" % (w, lst(ts))
                    elif t == "archive": ty = "(TArchive %s)" % q(p.next())
                    else: ty = "(TObject %s)" % q(t)
                    p.eat(";"); rs.append("PResource %s %s %s" % (q(rn), lst(ds), ty))
                A.append("PArchive %s %s %s" % (q(n), lst(bound), lst(rs)))
            else: raise Exception(k)
        nss.append("PNamespace %s %s %s %s %s" % (q(name), lst(C), lst(S), lst(EN), lst(A)))
    return lst(nss)
def main():
    rows = []
    for d, _, fs in sorted(os.walk(T)):
        for f in sorted(fs):
            if not f.endswith(".flatdata"): continue
            rel = os.path.relpath(os.path.join(d, f), T)
            inp = open(os.path.join(d, f)).read(); exp = open(os.path.join(E, rel)).read()
            assert '"' not in exp
            try: a, b = schema(inp), schema(exp)
            except Exception as e: print("skip", rel, e); continue
            rows.append((rel, a, b, exp))
    print(len(rows))
    with open('/verif/rocq/theories/Conformance_GenFlatdata.v', 'w') as o:
        o.write('''(** GENERATED by tools/gen_schema_vectors.py: the repository's own generator test cases (test_cases/) and expected
    normalised schemas (flatdata-generator/tests/generators/flatdata_expectations) evaluated on the model: each case as
    [test_against_expectations] and as [test_normalization_is_fixed_point] (test_flatdata_generator.py:26-32).  Tests of the
    model's faithfulness, not proofs of properties. *)
From Coq Require Import List ZArith Bool String.
From Verif Require Import PyBase GenTree GenBuild GenFlatdata.
Import ListNotations.
Local Open Scope string_scope.

Definition renders (s : pschema) (expected : string) : bool :=
  match build_ast (fun l => l) s with
  | Ok root => match render_lines root with Ok ls => String.eqb (text ls) expected | Err _ => false end
  | Err _ => false
  end.

Definition cases : list (pschema * pschema * string) :=
 [''' + ";\n  ".join("(* %s *)\n  (%s,\n   %s,\n\"%s\")" % r for r in rows) + '''].

Example schema_vectors_pass : forallb (fun c => let '(a, b, e) := c in renders a e && renders b e) cases = true.
Proof. vm_compute. reflexivity. Qed.
''')
main()
