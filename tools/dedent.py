"""Writes rocq/theories/Conformance4.v: what textwrap.dedent of the Python that runs this gives for strings of
spaces, tabs, newlines, carriage returns, form feeds and letters, compared with the model (Dedent.v)."""
import itertools, random, textwrap

def lit(s):
    return "[" + "; ".join(str(ord(c)) for c in s) + "]"

random.seed(7)
cases = ["".join(t) for n in range(4) for t in itertools.product(" \t\na", repeat=n)]
for _ in range(400):
    cases.append("".join(random.choice("  \t\n\nab\r\x0c") for _ in range(random.randrange(4, 24))))
for _ in range(200):
    w = "".join(random.choice(" \t") for _ in range(random.randrange(0, 4)))
    cases.append("\n".join(random.choice(["", w, " "]) if random.random() < 0.3 else w + random.choice(["", " ", "\t"]) + "ab" for _ in range(random.randrange(1, 5))))
cases = list(dict.fromkeys(cases))
with open("rocq/theories/Conformance4.v", "w") as f:
    f.write("(** * textwrap.dedent on examples, generated by tools/dedent.py (no theorems about fixit) *)\n")
    f.write("From Coq Require Import List NArith.\nFrom Verif Require Import Base Dedent.\nImport ListNotations.\nLocal Open Scope N_scope.\n\n")
    f.write("Definition dedent_cases : list (str * str) :=\n  [ ")
    f.write(";\n    ".join("(%s, %s)" % (lit(c), lit(textwrap.dedent(c))) for c in cases))
    f.write(" ].\n\nExample dedent_conforms : forallb (fun c => str_eqb (dedent (fst c)) (snd c)) dedent_cases = true.\nProof. vm_compute. reflexivity. Qed.\n")
print(len(cases))
