"""Writes rocq/theories/Conformance5.v: what str.format of the Python that runs this makes of templates, compared with the model
(Template.v). Where the model asks for something that it does not model (attributes, items, repr, format specs) nothing is compared."""
import itertools, random
from pathlib import PurePosixPath

def lit(s):
    return "[" + "; ".join(str(ord(c)) for c in s) + "]"

random.seed(11)
NAMES = ["message", "path", "rule_name", "start_col", "start_line"]
parts = ["{", "}", "{{", "}}", "!", ":", "s", "!s", "!z", "[", "]", ".", "0", "a", " "]
cases = ["".join(t) for n in range(5) for t in itertools.product("{}:!", repeat=n)]
cases += ["".join(t) for n in range(4) for t in itertools.product("{}[a", repeat=n)]
cases += ["{path}@{start_line}:{start_col} {rule_name}: {message}", "{path}:{start_line}:{start_col} {rule_name}: {message}",
          "{message:{message}}", "{message:{{}}}", "{message:{path:{rule_name}}}", "{message!s:}", "{path!s}", "{12}", "{0}{", "{message}{", "{nope}}",
          "{message[}]}", "{message[{]}", "{start_col:{start_line}}", "{message!}}", "{message!:}", "{message!!}", "{message!s"]
for _ in range(900):
    t = ""
    for _ in range(random.randrange(1, 7)):
        r = random.random()
        if r < 0.35: t += "{" + random.choice(NAMES) + "}"
        elif r < 0.45: t += "{" + random.choice(NAMES) + random.choice([":", "!s", "!s:", "!z", "!", "!s "]) + "}"
        elif r < 0.5: t += "{" + random.choice(["nope", "", "0", "7a", "Message"]) + "}"
        elif r < 0.6: t += "{" + random.choice(NAMES)
        else: t += random.choice(parts)
    cases.append(t)
cases = list(dict.fromkeys(cases))
EMPTY = [dict(message="Use {x} (has autofix)", path=PurePosixPath("a/b.py"), rule_name="Some", start_col=4, start_line=12),
         dict(message="", path=PurePosixPath("/"), rule_name="", start_col=0, start_line=-3)]
KNOWN = {"ValueError", "KeyError", "IndexError", "AttributeError", "TypeError"}
def run(t, v):
    try:
        return "Ok " + lit(t.format(result=object(), **v))
    except Exception as e:
        n = type(e).__name__
        assert n in KNOWN, n
        return "Err " + n
with open("rocq/theories/Conformance5.v", "w") as f:
    f.write("(** * str.format on examples, generated by tools/template.py (no theorems about fixit) *)\n")
    f.write("From Coq Require Import String List NArith ZArith Bool.\nFrom Verif Require Import Base Ftypes Config Suppress Cst Engine Api Cli Template.\nImport ListNotations.\nLocal Open Scope N_scope.\n\n")
    f.write("(** Whatever is not modelled stops with this exception. *)\nDefinition unknown : exn := OtherError 5.\n")
    f.write("Definition nothing_else : python := Python unit (fun _ => tt) (fun _ _ => Err unknown) (fun _ => Err unknown) (fun _ => Err unknown) (fun _ => Err unknown) (fun _ _ => Err unknown).\n")
    f.write("Definition agrees (real model : res str) : bool :=\n  match model, real with\n  | Err (OtherError 5), _ => true\n  | Err a, Err b => if exn_eq_dec a b then true else false\n  | Ok a, Ok b => str_eqb a b\n  | _, _ => false\n  end.\n")
    f.write("Definition compared (model : res str) : bool := match model with Err (OtherError 5) => false | _ => true end.\n\n")
    for i, v in enumerate(EMPTY):
        f.write("Definition format%d (t : str) : res str := build nothing_else 2 (variables nothing_else %s %s (Result [] None None) %s (%d)%%Z (%d)%%Z) t.\n"
                % (i, lit(v["message"]), lit(str(v["path"])), lit(v["rule_name"]), v["start_col"], v["start_line"]))
        f.write("Definition format%d_cases : list (str * res str) :=\n  [ " % i)
        f.write(";\n    ".join("(%s, %s)" % (lit(c), run(c, v)) for c in cases))
        f.write(" ].\n\nExample format%d_conforms : forallb (fun c => agrees (snd c) (format%d (fst c))) format%d_cases = true.\nProof. vm_compute. reflexivity. Qed.\n" % (i, i, i))
        f.write("Example format%d_compared : Nat.leb %d (List.length (filter (fun c => compared (format%d (fst c))) format%d_cases)) = true.\nProof. vm_compute. reflexivity. Qed.\n\n" % (i, len(cases) * 8 // 10, i, i))
print(len(cases))
