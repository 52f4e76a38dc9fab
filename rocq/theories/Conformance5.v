(** * str.format on examples, generated by tools/template.py (no theorems about fixit) *)
From Coq Require Import String List NArith ZArith Bool.
From Verif Require Import Base Ftypes Config Suppress Cst Engine Api Cli Template.
Import ListNotations.
Local Open Scope N_scope.

(** Whatever is not modelled stops with this exception. *)
Definition unknown : exn := OtherError 5.
Definition nothing_else : python := Python unit (fun _ => tt) (fun _ _ => Err unknown) (fun _ => Err unknown) (fun _ => Err unknown) (fun _ => Err unknown) (fun _ _ => Err unknown).
Definition agrees (real model : res str) : bool :=
  match model, real with
  | Err (OtherError 5), _ => true
  | Err a, Err b => if exn_eq_dec a b then true else false
  | Ok a, Ok b => str_eqb a b
  | _, _ => false
  end.
Definition compared (model : res str) : bool := match model with Err (OtherError 5) => false | _ => true end.

Definition format0 (t : str) : res str := build nothing_else 2 (variables nothing_else [85; 115; 101; 32; 123; 120; 125; 32; 40; 104; 97; 115; 32; 97; 117; 116; 111; 102; 105; 120; 41] [97; 47; 98; 46; 112; 121] (Result [] None None) [83; 111; 109; 101] (4)%Z (12)%Z) t.
Definition format0_cases : list (str * res str) :=
  [ ([], Ok []);
    ([123], Err ValueError);
    ([125], Err ValueError);
    ([58], Ok [58]);
    ([33], Ok [33]);
    ([123; 123], Ok [123]);
    ([123; 125], Err IndexError);
    ([123; 58], Err ValueError);
    ([123; 33], Err ValueError);
    ([125; 123], Err ValueError);
    ([125; 125], Ok [125]);
    ([125; 58], Err ValueError);
    ([125; 33], Err ValueError);
    ([58; 123], Err ValueError);
    ([58; 125], Err ValueError);
    ([58; 58], Ok [58; 58]);
    ([58; 33], Ok [58; 33]);
    ([33; 123], Err ValueError);
    ([33; 125], Err ValueError);
    ([33; 58], Ok [33; 58]);
    ([33; 33], Ok [33; 33]);
    ([123; 123; 123], Err ValueError);
    ([123; 123; 125], Err ValueError);
    ([123; 123; 58], Ok [123; 58]);
    ([123; 123; 33], Ok [123; 33]);
    ([123; 125; 123], Err IndexError);
    ([123; 125; 125], Err IndexError);
    ([123; 125; 58], Err IndexError);
    ([123; 125; 33], Err IndexError);
    ([123; 58; 123], Err ValueError);
    ([123; 58; 125], Err IndexError);
    ([123; 58; 58], Err ValueError);
    ([123; 58; 33], Err ValueError);
    ([123; 33; 123], Err ValueError);
    ([123; 33; 125], Err ValueError);
    ([123; 33; 58], Err ValueError);
    ([123; 33; 33], Err ValueError);
    ([125; 123; 123], Err ValueError);
    ([125; 123; 125], Err ValueError);
    ([125; 123; 58], Err ValueError);
    ([125; 123; 33], Err ValueError);
    ([125; 125; 123], Err ValueError);
    ([125; 125; 125], Err ValueError);
    ([125; 125; 58], Ok [125; 58]);
    ([125; 125; 33], Ok [125; 33]);
    ([125; 58; 123], Err ValueError);
    ([125; 58; 125], Err ValueError);
    ([125; 58; 58], Err ValueError);
    ([125; 58; 33], Err ValueError);
    ([125; 33; 123], Err ValueError);
    ([125; 33; 125], Err ValueError);
    ([125; 33; 58], Err ValueError);
    ([125; 33; 33], Err ValueError);
    ([58; 123; 123], Ok [58; 123]);
    ([58; 123; 125], Err IndexError);
    ([58; 123; 58], Err ValueError);
    ([58; 123; 33], Err ValueError);
    ([58; 125; 123], Err ValueError);
    ([58; 125; 125], Ok [58; 125]);
    ([58; 125; 58], Err ValueError);
    ([58; 125; 33], Err ValueError);
    ([58; 58; 123], Err ValueError);
    ([58; 58; 125], Err ValueError);
    ([58; 58; 58], Ok [58; 58; 58]);
    ([58; 58; 33], Ok [58; 58; 33]);
    ([58; 33; 123], Err ValueError);
    ([58; 33; 125], Err ValueError);
    ([58; 33; 58], Ok [58; 33; 58]);
    ([58; 33; 33], Ok [58; 33; 33]);
    ([33; 123; 123], Ok [33; 123]);
    ([33; 123; 125], Err IndexError);
    ([33; 123; 58], Err ValueError);
    ([33; 123; 33], Err ValueError);
    ([33; 125; 123], Err ValueError);
    ([33; 125; 125], Ok [33; 125]);
    ([33; 125; 58], Err ValueError);
    ([33; 125; 33], Err ValueError);
    ([33; 58; 123], Err ValueError);
    ([33; 58; 125], Err ValueError);
    ([33; 58; 58], Ok [33; 58; 58]);
    ([33; 58; 33], Ok [33; 58; 33]);
    ([33; 33; 123], Err ValueError);
    ([33; 33; 125], Err ValueError);
    ([33; 33; 58], Ok [33; 33; 58]);
    ([33; 33; 33], Ok [33; 33; 33]);
    ([123; 123; 123; 123], Ok [123; 123]);
    ([123; 123; 123; 125], Err IndexError);
    ([123; 123; 123; 58], Err ValueError);
    ([123; 123; 123; 33], Err ValueError);
    ([123; 123; 125; 123], Err ValueError);
    ([123; 123; 125; 125], Ok [123; 125]);
    ([123; 123; 125; 58], Err ValueError);
    ([123; 123; 125; 33], Err ValueError);
    ([123; 123; 58; 123], Err ValueError);
    ([123; 123; 58; 125], Err ValueError);
    ([123; 123; 58; 58], Ok [123; 58; 58]);
    ([123; 123; 58; 33], Ok [123; 58; 33]);
    ([123; 123; 33; 123], Err ValueError);
    ([123; 123; 33; 125], Err ValueError);
    ([123; 123; 33; 58], Ok [123; 33; 58]);
    ([123; 123; 33; 33], Ok [123; 33; 33]);
    ([123; 125; 123; 123], Err IndexError);
    ([123; 125; 123; 125], Err IndexError);
    ([123; 125; 123; 58], Err IndexError);
    ([123; 125; 123; 33], Err IndexError);
    ([123; 125; 125; 123], Err IndexError);
    ([123; 125; 125; 125], Err IndexError);
    ([123; 125; 125; 58], Err IndexError);
    ([123; 125; 125; 33], Err IndexError);
    ([123; 125; 58; 123], Err IndexError);
    ([123; 125; 58; 125], Err IndexError);
    ([123; 125; 58; 58], Err IndexError);
    ([123; 125; 58; 33], Err IndexError);
    ([123; 125; 33; 123], Err IndexError);
    ([123; 125; 33; 125], Err IndexError);
    ([123; 125; 33; 58], Err IndexError);
    ([123; 125; 33; 33], Err IndexError);
    ([123; 58; 123; 123], Err ValueError);
    ([123; 58; 123; 125], Err ValueError);
    ([123; 58; 123; 58], Err ValueError);
    ([123; 58; 123; 33], Err ValueError);
    ([123; 58; 125; 123], Err IndexError);
    ([123; 58; 125; 125], Err IndexError);
    ([123; 58; 125; 58], Err IndexError);
    ([123; 58; 125; 33], Err IndexError);
    ([123; 58; 58; 123], Err ValueError);
    ([123; 58; 58; 125], Err IndexError);
    ([123; 58; 58; 58], Err ValueError);
    ([123; 58; 58; 33], Err ValueError);
    ([123; 58; 33; 123], Err ValueError);
    ([123; 58; 33; 125], Err IndexError);
    ([123; 58; 33; 58], Err ValueError);
    ([123; 58; 33; 33], Err ValueError);
    ([123; 33; 123; 123], Err ValueError);
    ([123; 33; 123; 125], Err IndexError);
    ([123; 33; 123; 58], Err ValueError);
    ([123; 33; 123; 33], Err ValueError);
    ([123; 33; 125; 123], Err ValueError);
    ([123; 33; 125; 125], Err IndexError);
    ([123; 33; 125; 58], Err ValueError);
    ([123; 33; 125; 33], Err ValueError);
    ([123; 33; 58; 123], Err ValueError);
    ([123; 33; 58; 125], Err IndexError);
    ([123; 33; 58; 58], Err ValueError);
    ([123; 33; 58; 33], Err ValueError);
    ([123; 33; 33; 123], Err ValueError);
    ([123; 33; 33; 125], Err IndexError);
    ([123; 33; 33; 58], Err ValueError);
    ([123; 33; 33; 33], Err ValueError);
    ([125; 123; 123; 123], Err ValueError);
    ([125; 123; 123; 125], Err ValueError);
    ([125; 123; 123; 58], Err ValueError);
    ([125; 123; 123; 33], Err ValueError);
    ([125; 123; 125; 123], Err ValueError);
    ([125; 123; 125; 125], Err ValueError);
    ([125; 123; 125; 58], Err ValueError);
    ([125; 123; 125; 33], Err ValueError);
    ([125; 123; 58; 123], Err ValueError);
    ([125; 123; 58; 125], Err ValueError);
    ([125; 123; 58; 58], Err ValueError);
    ([125; 123; 58; 33], Err ValueError);
    ([125; 123; 33; 123], Err ValueError);
    ([125; 123; 33; 125], Err ValueError);
    ([125; 123; 33; 58], Err ValueError);
    ([125; 123; 33; 33], Err ValueError);
    ([125; 125; 123; 123], Ok [125; 123]);
    ([125; 125; 123; 125], Err IndexError);
    ([125; 125; 123; 58], Err ValueError);
    ([125; 125; 123; 33], Err ValueError);
    ([125; 125; 125; 123], Err ValueError);
    ([125; 125; 125; 125], Ok [125; 125]);
    ([125; 125; 125; 58], Err ValueError);
    ([125; 125; 125; 33], Err ValueError);
    ([125; 125; 58; 123], Err ValueError);
    ([125; 125; 58; 125], Err ValueError);
    ([125; 125; 58; 58], Ok [125; 58; 58]);
    ([125; 125; 58; 33], Ok [125; 58; 33]);
    ([125; 125; 33; 123], Err ValueError);
    ([125; 125; 33; 125], Err ValueError);
    ([125; 125; 33; 58], Ok [125; 33; 58]);
    ([125; 125; 33; 33], Ok [125; 33; 33]);
    ([125; 58; 123; 123], Err ValueError);
    ([125; 58; 123; 125], Err ValueError);
    ([125; 58; 123; 58], Err ValueError);
    ([125; 58; 123; 33], Err ValueError);
    ([125; 58; 125; 123], Err ValueError);
    ([125; 58; 125; 125], Err ValueError);
    ([125; 58; 125; 58], Err ValueError);
    ([125; 58; 125; 33], Err ValueError);
    ([125; 58; 58; 123], Err ValueError);
    ([125; 58; 58; 125], Err ValueError);
    ([125; 58; 58; 58], Err ValueError);
    ([125; 58; 58; 33], Err ValueError);
    ([125; 58; 33; 123], Err ValueError);
    ([125; 58; 33; 125], Err ValueError);
    ([125; 58; 33; 58], Err ValueError);
    ([125; 58; 33; 33], Err ValueError);
    ([125; 33; 123; 123], Err ValueError);
    ([125; 33; 123; 125], Err ValueError);
    ([125; 33; 123; 58], Err ValueError);
    ([125; 33; 123; 33], Err ValueError);
    ([125; 33; 125; 123], Err ValueError);
    ([125; 33; 125; 125], Err ValueError);
    ([125; 33; 125; 58], Err ValueError);
    ([125; 33; 125; 33], Err ValueError);
    ([125; 33; 58; 123], Err ValueError);
    ([125; 33; 58; 125], Err ValueError);
    ([125; 33; 58; 58], Err ValueError);
    ([125; 33; 58; 33], Err ValueError);
    ([125; 33; 33; 123], Err ValueError);
    ([125; 33; 33; 125], Err ValueError);
    ([125; 33; 33; 58], Err ValueError);
    ([125; 33; 33; 33], Err ValueError);
    ([58; 123; 123; 123], Err ValueError);
    ([58; 123; 123; 125], Err ValueError);
    ([58; 123; 123; 58], Ok [58; 123; 58]);
    ([58; 123; 123; 33], Ok [58; 123; 33]);
    ([58; 123; 125; 123], Err IndexError);
    ([58; 123; 125; 125], Err IndexError);
    ([58; 123; 125; 58], Err IndexError);
    ([58; 123; 125; 33], Err IndexError);
    ([58; 123; 58; 123], Err ValueError);
    ([58; 123; 58; 125], Err IndexError);
    ([58; 123; 58; 58], Err ValueError);
    ([58; 123; 58; 33], Err ValueError);
    ([58; 123; 33; 123], Err ValueError);
    ([58; 123; 33; 125], Err ValueError);
    ([58; 123; 33; 58], Err ValueError);
    ([58; 123; 33; 33], Err ValueError);
    ([58; 125; 123; 123], Err ValueError);
    ([58; 125; 123; 125], Err ValueError);
    ([58; 125; 123; 58], Err ValueError);
    ([58; 125; 123; 33], Err ValueError);
    ([58; 125; 125; 123], Err ValueError);
    ([58; 125; 125; 125], Err ValueError);
    ([58; 125; 125; 58], Ok [58; 125; 58]);
    ([58; 125; 125; 33], Ok [58; 125; 33]);
    ([58; 125; 58; 123], Err ValueError);
    ([58; 125; 58; 125], Err ValueError);
    ([58; 125; 58; 58], Err ValueError);
    ([58; 125; 58; 33], Err ValueError);
    ([58; 125; 33; 123], Err ValueError);
    ([58; 125; 33; 125], Err ValueError);
    ([58; 125; 33; 58], Err ValueError);
    ([58; 125; 33; 33], Err ValueError);
    ([58; 58; 123; 123], Ok [58; 58; 123]);
    ([58; 58; 123; 125], Err IndexError);
    ([58; 58; 123; 58], Err ValueError);
    ([58; 58; 123; 33], Err ValueError);
    ([58; 58; 125; 123], Err ValueError);
    ([58; 58; 125; 125], Ok [58; 58; 125]);
    ([58; 58; 125; 58], Err ValueError);
    ([58; 58; 125; 33], Err ValueError);
    ([58; 58; 58; 123], Err ValueError);
    ([58; 58; 58; 125], Err ValueError);
    ([58; 58; 58; 58], Ok [58; 58; 58; 58]);
    ([58; 58; 58; 33], Ok [58; 58; 58; 33]);
    ([58; 58; 33; 123], Err ValueError);
    ([58; 58; 33; 125], Err ValueError);
    ([58; 58; 33; 58], Ok [58; 58; 33; 58]);
    ([58; 58; 33; 33], Ok [58; 58; 33; 33]);
    ([58; 33; 123; 123], Ok [58; 33; 123]);
    ([58; 33; 123; 125], Err IndexError);
    ([58; 33; 123; 58], Err ValueError);
    ([58; 33; 123; 33], Err ValueError);
    ([58; 33; 125; 123], Err ValueError);
    ([58; 33; 125; 125], Ok [58; 33; 125]);
    ([58; 33; 125; 58], Err ValueError);
    ([58; 33; 125; 33], Err ValueError);
    ([58; 33; 58; 123], Err ValueError);
    ([58; 33; 58; 125], Err ValueError);
    ([58; 33; 58; 58], Ok [58; 33; 58; 58]);
    ([58; 33; 58; 33], Ok [58; 33; 58; 33]);
    ([58; 33; 33; 123], Err ValueError);
    ([58; 33; 33; 125], Err ValueError);
    ([58; 33; 33; 58], Ok [58; 33; 33; 58]);
    ([58; 33; 33; 33], Ok [58; 33; 33; 33]);
    ([33; 123; 123; 123], Err ValueError);
    ([33; 123; 123; 125], Err ValueError);
    ([33; 123; 123; 58], Ok [33; 123; 58]);
    ([33; 123; 123; 33], Ok [33; 123; 33]);
    ([33; 123; 125; 123], Err IndexError);
    ([33; 123; 125; 125], Err IndexError);
    ([33; 123; 125; 58], Err IndexError);
    ([33; 123; 125; 33], Err IndexError);
    ([33; 123; 58; 123], Err ValueError);
    ([33; 123; 58; 125], Err IndexError);
    ([33; 123; 58; 58], Err ValueError);
    ([33; 123; 58; 33], Err ValueError);
    ([33; 123; 33; 123], Err ValueError);
    ([33; 123; 33; 125], Err ValueError);
    ([33; 123; 33; 58], Err ValueError);
    ([33; 123; 33; 33], Err ValueError);
    ([33; 125; 123; 123], Err ValueError);
    ([33; 125; 123; 125], Err ValueError);
    ([33; 125; 123; 58], Err ValueError);
    ([33; 125; 123; 33], Err ValueError);
    ([33; 125; 125; 123], Err ValueError);
    ([33; 125; 125; 125], Err ValueError);
    ([33; 125; 125; 58], Ok [33; 125; 58]);
    ([33; 125; 125; 33], Ok [33; 125; 33]);
    ([33; 125; 58; 123], Err ValueError);
    ([33; 125; 58; 125], Err ValueError);
    ([33; 125; 58; 58], Err ValueError);
    ([33; 125; 58; 33], Err ValueError);
    ([33; 125; 33; 123], Err ValueError);
    ([33; 125; 33; 125], Err ValueError);
    ([33; 125; 33; 58], Err ValueError);
    ([33; 125; 33; 33], Err ValueError);
    ([33; 58; 123; 123], Ok [33; 58; 123]);
    ([33; 58; 123; 125], Err IndexError);
    ([33; 58; 123; 58], Err ValueError);
    ([33; 58; 123; 33], Err ValueError);
    ([33; 58; 125; 123], Err ValueError);
    ([33; 58; 125; 125], Ok [33; 58; 125]);
    ([33; 58; 125; 58], Err ValueError);
    ([33; 58; 125; 33], Err ValueError);
    ([33; 58; 58; 123], Err ValueError);
    ([33; 58; 58; 125], Err ValueError);
    ([33; 58; 58; 58], Ok [33; 58; 58; 58]);
    ([33; 58; 58; 33], Ok [33; 58; 58; 33]);
    ([33; 58; 33; 123], Err ValueError);
    ([33; 58; 33; 125], Err ValueError);
    ([33; 58; 33; 58], Ok [33; 58; 33; 58]);
    ([33; 58; 33; 33], Ok [33; 58; 33; 33]);
    ([33; 33; 123; 123], Ok [33; 33; 123]);
    ([33; 33; 123; 125], Err IndexError);
    ([33; 33; 123; 58], Err ValueError);
    ([33; 33; 123; 33], Err ValueError);
    ([33; 33; 125; 123], Err ValueError);
    ([33; 33; 125; 125], Ok [33; 33; 125]);
    ([33; 33; 125; 58], Err ValueError);
    ([33; 33; 125; 33], Err ValueError);
    ([33; 33; 58; 123], Err ValueError);
    ([33; 33; 58; 125], Err ValueError);
    ([33; 33; 58; 58], Ok [33; 33; 58; 58]);
    ([33; 33; 58; 33], Ok [33; 33; 58; 33]);
    ([33; 33; 33; 123], Err ValueError);
    ([33; 33; 33; 125], Err ValueError);
    ([33; 33; 33; 58], Ok [33; 33; 33; 58]);
    ([33; 33; 33; 33], Ok [33; 33; 33; 33]);
    ([91], Ok [91]);
    ([97], Ok [97]);
    ([123; 91], Err ValueError);
    ([123; 97], Err ValueError);
    ([125; 91], Err ValueError);
    ([125; 97], Err ValueError);
    ([91; 123], Err ValueError);
    ([91; 125], Err ValueError);
    ([91; 91], Ok [91; 91]);
    ([91; 97], Ok [91; 97]);
    ([97; 123], Err ValueError);
    ([97; 125], Err ValueError);
    ([97; 91], Ok [97; 91]);
    ([97; 97], Ok [97; 97]);
    ([123; 123; 91], Ok [123; 91]);
    ([123; 123; 97], Ok [123; 97]);
    ([123; 125; 91], Err IndexError);
    ([123; 125; 97], Err IndexError);
    ([123; 91; 123], Err ValueError);
    ([123; 91; 125], Err ValueError);
    ([123; 91; 91], Err ValueError);
    ([123; 91; 97], Err ValueError);
    ([123; 97; 123], Err ValueError);
    ([123; 97; 125], Err KeyError);
    ([123; 97; 91], Err ValueError);
    ([123; 97; 97], Err ValueError);
    ([125; 123; 91], Err ValueError);
    ([125; 123; 97], Err ValueError);
    ([125; 125; 91], Ok [125; 91]);
    ([125; 125; 97], Ok [125; 97]);
    ([125; 91; 123], Err ValueError);
    ([125; 91; 125], Err ValueError);
    ([125; 91; 91], Err ValueError);
    ([125; 91; 97], Err ValueError);
    ([125; 97; 123], Err ValueError);
    ([125; 97; 125], Err ValueError);
    ([125; 97; 91], Err ValueError);
    ([125; 97; 97], Err ValueError);
    ([91; 123; 123], Ok [91; 123]);
    ([91; 123; 125], Err IndexError);
    ([91; 123; 91], Err ValueError);
    ([91; 123; 97], Err ValueError);
    ([91; 125; 123], Err ValueError);
    ([91; 125; 125], Ok [91; 125]);
    ([91; 125; 91], Err ValueError);
    ([91; 125; 97], Err ValueError);
    ([91; 91; 123], Err ValueError);
    ([91; 91; 125], Err ValueError);
    ([91; 91; 91], Ok [91; 91; 91]);
    ([91; 91; 97], Ok [91; 91; 97]);
    ([91; 97; 123], Err ValueError);
    ([91; 97; 125], Err ValueError);
    ([91; 97; 91], Ok [91; 97; 91]);
    ([91; 97; 97], Ok [91; 97; 97]);
    ([97; 123; 123], Ok [97; 123]);
    ([97; 123; 125], Err IndexError);
    ([97; 123; 91], Err ValueError);
    ([97; 123; 97], Err ValueError);
    ([97; 125; 123], Err ValueError);
    ([97; 125; 125], Ok [97; 125]);
    ([97; 125; 91], Err ValueError);
    ([97; 125; 97], Err ValueError);
    ([97; 91; 123], Err ValueError);
    ([97; 91; 125], Err ValueError);
    ([97; 91; 91], Ok [97; 91; 91]);
    ([97; 91; 97], Ok [97; 91; 97]);
    ([97; 97; 123], Err ValueError);
    ([97; 97; 125], Err ValueError);
    ([97; 97; 91], Ok [97; 97; 91]);
    ([97; 97; 97], Ok [97; 97; 97]);
    ([123; 112; 97; 116; 104; 125; 64; 123; 115; 116; 97; 114; 116; 95; 108; 105; 110; 101; 125; 58; 123; 115; 116; 97; 114; 116; 95; 99; 111; 108; 125; 32; 123; 114; 117; 108; 101; 95; 110; 97; 109; 101; 125; 58; 32; 123; 109; 101; 115; 115; 97; 103; 101; 125], Ok [97; 47; 98; 46; 112; 121; 64; 49; 50; 58; 52; 32; 83; 111; 109; 101; 58; 32; 85; 115; 101; 32; 123; 120; 125; 32; 40; 104; 97; 115; 32; 97; 117; 116; 111; 102; 105; 120; 41]);
    ([123; 112; 97; 116; 104; 125; 58; 123; 115; 116; 97; 114; 116; 95; 108; 105; 110; 101; 125; 58; 123; 115; 116; 97; 114; 116; 95; 99; 111; 108; 125; 32; 123; 114; 117; 108; 101; 95; 110; 97; 109; 101; 125; 58; 32; 123; 109; 101; 115; 115; 97; 103; 101; 125], Ok [97; 47; 98; 46; 112; 121; 58; 49; 50; 58; 52; 32; 83; 111; 109; 101; 58; 32; 85; 115; 101; 32; 123; 120; 125; 32; 40; 104; 97; 115; 32; 97; 117; 116; 111; 102; 105; 120; 41]);
    ([123; 109; 101; 115; 115; 97; 103; 101; 58; 123; 109; 101; 115; 115; 97; 103; 101; 125; 125], Err ValueError);
    ([123; 109; 101; 115; 115; 97; 103; 101; 58; 123; 123; 125; 125; 125], Err ValueError);
    ([123; 109; 101; 115; 115; 97; 103; 101; 58; 123; 112; 97; 116; 104; 58; 123; 114; 117; 108; 101; 95; 110; 97; 109; 101; 125; 125; 125], Err ValueError);
    ([123; 109; 101; 115; 115; 97; 103; 101; 33; 115; 58; 125], Ok [85; 115; 101; 32; 123; 120; 125; 32; 40; 104; 97; 115; 32; 97; 117; 116; 111; 102; 105; 120; 41]);
    ([123; 112; 97; 116; 104; 33; 115; 125], Ok [97; 47; 98; 46; 112; 121]);
    ([123; 49; 50; 125], Err IndexError);
    ([123; 48; 125; 123], Err IndexError);
    ([123; 109; 101; 115; 115; 97; 103; 101; 125; 123], Err ValueError);
    ([123; 110; 111; 112; 101; 125; 125], Err KeyError);
    ([123; 109; 101; 115; 115; 97; 103; 101; 91; 125; 93; 125], Err TypeError);
    ([123; 109; 101; 115; 115; 97; 103; 101; 91; 123; 93; 125], Err TypeError);
    ([123; 115; 116; 97; 114; 116; 95; 99; 111; 108; 58; 123; 115; 116; 97; 114; 116; 95; 108; 105; 110; 101; 125; 125], Ok [32; 32; 32; 32; 32; 32; 32; 32; 32; 32; 32; 52]);
    ([123; 109; 101; 115; 115; 97; 103; 101; 33; 125; 125], Err ValueError);
    ([123; 109; 101; 115; 115; 97; 103; 101; 33; 58; 125], Err ValueError);
    ([123; 109; 101; 115; 115; 97; 103; 101; 33; 33; 125], Err ValueError);
    ([123; 109; 101; 115; 115; 97; 103; 101; 33; 115], Err ValueError);
    ([97; 33; 115; 123; 77; 101; 115; 115; 97; 103; 101; 125; 123; 115; 116; 97; 114; 116; 95; 108; 105; 110; 101; 125], Err KeyError);
    ([48; 123; 115; 116; 97; 114; 116; 95; 99; 111; 108; 125; 123; 109; 101; 115; 115; 97; 103; 101; 125; 123; 109; 101; 115; 115; 97; 103; 101], Err ValueError);
    ([33; 115; 91; 91; 123; 115; 116; 97; 114; 116; 95; 108; 105; 110; 101; 125; 123; 109; 101; 115; 115; 97; 103; 101; 125], Ok [33; 115; 91; 91; 49; 50; 85; 115; 101; 32; 123; 120; 125; 32; 40; 104; 97; 115; 32; 97; 117; 116; 111; 102; 105; 120; 41]);
    ([91; 123; 115; 116; 97; 114; 116; 95; 99; 111; 108; 125], Ok [91; 52]);
    ([123; 112; 97; 116; 104; 33; 125; 123; 114; 117; 108; 101; 95; 110; 97; 109; 101; 125; 123; 110; 111; 112; 101; 125], Err ValueError);
    ([115; 32; 46; 123; 112; 97; 116; 104; 125], Ok [115; 32; 46; 97; 47; 98; 46; 112; 121]);
    ([123; 109; 101; 115; 115; 97; 103; 101; 125; 123; 109; 101; 115; 115; 97; 103; 101; 123; 114; 117; 108; 101; 95; 110; 97; 109; 101; 33; 122; 125; 123; 109; 101; 115; 115; 97; 103; 101; 125; 123], Err ValueError);
    ([123; 109; 101; 115; 115; 97; 103; 101; 125; 123; 55; 97; 125], Err KeyError);
    ([123; 112; 97; 116; 104; 125; 33; 123; 114; 117; 108; 101; 95; 110; 97; 109; 101; 125; 123; 115; 116; 97; 114; 116; 95; 99; 111; 108; 125], Ok [97; 47; 98; 46; 112; 121; 33; 83; 111; 109; 101; 52]);
    ([123; 109; 101; 115; 115; 97; 103; 101; 125], Ok [85; 115; 101; 32; 123; 120; 125; 32; 40; 104; 97; 115; 32; 97; 117; 116; 111; 102; 105; 120; 41]);
    ([123; 115; 116; 97; 114; 116; 95; 99; 111; 108; 125], Ok [52]);
    ([125; 125; 123; 112; 97; 116; 104; 33; 115; 32; 125], Err ValueError);
    ([123; 115; 116; 97; 114; 116; 95; 99; 111; 108; 58; 125; 123; 112; 97; 116; 104; 58; 125], Ok [52; 97; 47; 98; 46; 112; 121]);
    ([48; 123; 109; 101; 115; 115; 97; 103; 101; 123; 115; 116; 97; 114; 116; 95; 99; 111; 108; 125], Err ValueError);
    ([125; 123; 112; 97; 116; 104; 125; 123; 114; 117; 108; 101; 95; 110; 97; 109; 101; 125; 123; 115; 116; 97; 114; 116; 95; 108; 105; 110; 101; 125; 123; 114; 117; 108; 101; 95; 110; 97; 109; 101; 125], Err ValueError);
    ([123; 109; 101; 115; 115; 97; 103; 101; 125; 123; 112; 97; 116; 104; 125; 123; 114; 117; 108; 101; 95; 110; 97; 109; 101; 125; 123; 115; 116; 97; 114; 116; 95; 99; 111; 108; 33; 115; 125], Ok [85; 115; 101; 32; 123; 120; 125; 32; 40; 104; 97; 115; 32; 97; 117; 116; 111; 102; 105; 120; 41; 97; 47; 98; 46; 112; 121; 83; 111; 109; 101; 52]);
    ([123; 77; 101; 115; 115; 97; 103; 101; 125; 123; 115; 116; 97; 114; 116; 95; 99; 111; 108; 125; 123; 112; 97; 116; 104; 125; 123; 112; 97; 116; 104; 125; 125; 125], Err KeyError);
    ([123; 115; 116; 97; 114; 116; 95; 108; 105; 110; 101; 125; 123; 115; 116; 97; 114; 116; 95; 99; 111; 108; 125; 91; 123; 109; 101; 115; 115; 97; 103; 101; 125; 123; 109; 101; 115; 115; 97; 103; 101; 125; 123; 114; 117; 108; 101; 95; 110; 97; 109; 101], Err ValueError);
    ([115; 123; 115; 116; 97; 114; 116; 95; 108; 105; 110; 101; 125], Ok [115; 49; 50]);
    ([123; 112; 97; 116; 104; 125; 125; 123; 115; 116; 97; 114; 116; 95; 99; 111; 108; 125; 123; 115; 116; 97; 114; 116; 95; 108; 105; 110; 101], Err ValueError);
    ([123; 112; 97; 116; 104; 125; 125; 125; 125; 123; 115; 116; 97; 114; 116; 95; 99; 111; 108; 125; 123; 109; 101; 115; 115; 97; 103; 101; 125], Err ValueError);
    ([123; 115; 116; 97; 114; 116; 95; 108; 105; 110; 101; 125; 123; 112; 97; 116; 104], Err ValueError);
    ([123; 115; 116; 97; 114; 116; 95; 99; 111; 108; 33; 115; 58; 125], Ok [52]);
    ([33; 122; 123; 112; 97; 116; 104; 123; 109; 101; 115; 115; 97; 103; 101; 123; 48; 125; 123; 123; 109; 101; 115; 115; 97; 103; 101; 125], Err ValueError);
    ([123; 114; 117; 108; 101; 95; 110; 97; 109; 101; 125; 123; 109; 101; 115; 115; 97; 103; 101; 125; 123; 115; 116; 97; 114; 116; 95; 108; 105; 110; 101; 125; 123; 109; 101; 115; 115; 97; 103; 101; 33; 115; 32; 125], Err ValueError);
    ([48; 58; 123; 115; 116; 97; 114; 116; 95; 99; 111; 108; 58; 125; 115; 123; 91], Err ValueError);
    ([115], Ok [115]);
    ([123; 115; 116; 97; 114; 116; 95; 108; 105; 110; 101; 123; 109; 101; 115; 115; 97; 103; 101; 125; 33; 46], Err ValueError);
    ([123; 115; 116; 97; 114; 116; 95; 108; 105; 110; 101; 33; 122; 125; 123; 115; 116; 97; 114; 116; 95; 108; 105; 110; 101; 58; 125; 123; 115; 116; 97; 114; 116; 95; 108; 105; 110; 101], Err ValueError);
    ([123; 109; 101; 115; 115; 97; 103; 101; 125; 123; 77; 101; 115; 115; 97; 103; 101; 125; 33; 115; 123; 109; 101; 115; 115; 97; 103; 101; 125], Err KeyError);
    ([123; 115; 116; 97; 114; 116; 95; 108; 105; 110; 101; 125; 123; 112; 97; 116; 104; 125; 58], Ok [49; 50; 97; 47; 98; 46; 112; 121; 58]);
    ([33; 115; 58; 123; 114; 117; 108; 101; 95; 110; 97; 109; 101; 33; 115; 125; 48; 32; 123; 112; 97; 116; 104; 125], Ok [33; 115; 58; 83; 111; 109; 101; 48; 32; 97; 47; 98; 46; 112; 121]);
    ([123; 114; 117; 108; 101; 95; 110; 97; 109; 101; 125; 123; 112; 97; 116; 104; 125; 123; 110; 111; 112; 101; 125; 33], Err KeyError);
    ([123; 115; 116; 97; 114; 116; 95; 99; 111; 108; 125; 123; 112; 97; 116; 104; 125], Ok [52; 97; 47; 98; 46; 112; 121]);
    ([123; 115; 116; 97; 114; 116; 95; 108; 105; 110; 101; 33; 122; 125; 46; 91; 123; 110; 111; 112; 101; 125], Err ValueError);
    ([123; 115; 116; 97; 114; 116; 95; 108; 105; 110; 101; 125], Ok [49; 50]);
    ([123; 115; 116; 97; 114; 116; 95; 108; 105; 110; 101; 58; 125; 115; 123; 110; 111; 112; 101; 125; 33; 123; 112; 97; 116; 104; 125], Err KeyError);
    ([123; 115; 116; 97; 114; 116; 95; 108; 105; 110; 101; 125; 48; 123; 109; 101; 115; 115; 97; 103; 101; 33; 115; 32; 125; 123; 115; 116; 97; 114; 116; 95; 99; 111; 108; 125], Err ValueError);
    ([123; 109; 101; 115; 115; 97; 103; 101; 125; 33; 122; 123; 123], Ok [85; 115; 101; 32; 123; 120; 125; 32; 40; 104; 97; 115; 32; 97; 117; 116; 111; 102; 105; 120; 41; 33; 122; 123]);
    ([123; 114; 117; 108; 101; 95; 110; 97; 109; 101; 125; 123; 115; 116; 97; 114; 116; 95; 108; 105; 110; 101], Err ValueError);
    ([48; 123; 112; 97; 116; 104; 125; 123; 115; 116; 97; 114; 116; 95; 99; 111; 108; 125; 123; 115; 116; 97; 114; 116; 95; 99; 111; 108; 125; 123; 109; 101; 115; 115; 97; 103; 101; 125], Ok [48; 97; 47; 98; 46; 112; 121; 52; 52; 85; 115; 101; 32; 123; 120; 125; 32; 40; 104; 97; 115; 32; 97; 117; 116; 111; 102; 105; 120; 41]);
    ([123; 115; 116; 97; 114; 116; 95; 108; 105; 110; 101; 58; 123; 125; 123; 109; 101; 115; 115; 97; 103; 101; 125], Err ValueError);
    ([123; 115; 116; 97; 114; 116; 95; 99; 111; 108; 125; 33], Ok [52; 33]);
    ([32; 123; 109; 101; 115; 115; 97; 103; 101; 125; 123; 109; 101; 115; 115; 97; 103; 101; 125; 123; 114; 117; 108; 101; 95; 110; 97; 109; 101; 125; 123; 114; 117; 108; 101; 95; 110; 97; 109; 101], Err ValueError);
    ([125; 125; 125; 123; 109; 101; 115; 115; 97; 103; 101; 33; 115; 125; 123; 112; 97; 116; 104], Err ValueError);
    ([123; 115; 116; 97; 114; 116; 95; 108; 105; 110; 101; 125; 33; 122; 46; 123; 115; 116; 97; 114; 116; 95; 99; 111; 108; 33; 125], Err ValueError);
    ([123; 112; 97; 116; 104; 125; 123; 115; 116; 97; 114; 116; 95; 108; 105; 110; 101; 33; 115; 58; 125; 33; 122; 33; 122; 123; 115; 116; 97; 114; 116; 95; 108; 105; 110; 101; 123; 115; 116; 97; 114; 116; 95; 99; 111; 108; 125], Err ValueError);
    ([123; 112; 97; 116; 104; 125; 33; 122; 123; 115; 116; 97; 114; 116; 95; 99; 111; 108; 125; 123; 115; 116; 97; 114; 116; 95; 108; 105; 110; 101; 125; 123; 109; 101; 115; 115; 97; 103; 101; 125], Ok [97; 47; 98; 46; 112; 121; 33; 122; 52; 49; 50; 85; 115; 101; 32; 123; 120; 125; 32; 40; 104; 97; 115; 32; 97; 117; 116; 111; 102; 105; 120; 41]);
    ([123; 115; 116; 97; 114; 116; 95; 108; 105; 110; 101; 58; 125; 123; 115; 116; 97; 114; 116; 95; 99; 111; 108; 123; 115; 116; 97; 114; 116; 95; 108; 105; 110; 101; 123; 109; 101; 115; 115; 97; 103; 101; 125; 125], Err ValueError);
    ([123; 55; 97; 125; 123; 115; 116; 97; 114; 116; 95; 99; 111; 108; 125; 123; 48; 125; 123; 115; 116; 97; 114; 116; 95; 99; 111; 108; 33; 125; 123; 112; 97; 116; 104; 125], Err KeyError);
    ([32; 123; 109; 101; 115; 115; 97; 103; 101; 125; 123; 112; 97; 116; 104; 125; 123; 114; 117; 108; 101; 95; 110; 97; 109; 101; 125], Ok [32; 85; 115; 101; 32; 123; 120; 125; 32; 40; 104; 97; 115; 32; 97; 117; 116; 111; 102; 105; 120; 41; 97; 47; 98; 46; 112; 121; 83; 111; 109; 101]);
    ([125; 125; 125; 123; 77; 101; 115; 115; 97; 103; 101; 125], Err ValueError);
    ([46; 123; 115; 116; 97; 114; 116; 95; 99; 111; 108; 123; 115; 116; 97; 114; 116; 95; 99; 111; 108; 125], Err ValueError);
    ([33; 122; 123; 115; 116; 97; 114; 116; 95; 108; 105; 110; 101; 125; 33; 122; 123; 115; 116; 97; 114; 116; 95; 108; 105; 110; 101; 125; 97], Ok [33; 122; 49; 50; 33; 122; 49; 50; 97]);
    ([123; 114; 117; 108; 101; 95; 110; 97; 109; 101; 125; 58], Ok [83; 111; 109; 101; 58]);
    ([123; 112; 97; 116; 104; 125; 123; 112; 97; 116; 104; 125; 123; 123; 123; 123; 33], Ok [97; 47; 98; 46; 112; 121; 97; 47; 98; 46; 112; 121; 123; 123; 33]);
    ([123; 115; 116; 97; 114; 116; 95; 99; 111; 108; 125; 123; 112; 97; 116; 104; 123; 109; 101; 115; 115; 97; 103; 101; 125; 123; 115; 116; 97; 114; 116; 95; 108; 105; 110; 101; 125], Err ValueError);
    ([123; 114; 117; 108; 101; 95; 110; 97; 109; 101; 58; 125; 93; 33; 122; 97; 123; 109; 101; 115; 115; 97; 103; 101; 125; 123; 110; 111; 112; 101; 125], Err KeyError);
    ([33; 115; 123; 112; 97; 116; 104; 125; 123; 112; 97; 116; 104; 125; 33; 125], Err ValueError);
    ([123; 115; 116; 97; 114; 116; 95; 99; 111; 108; 125; 123; 109; 101; 115; 115; 97; 103; 101; 125; 123; 115; 116; 97; 114; 116; 95; 99; 111; 108; 125; 123; 114; 117; 108; 101; 95; 110; 97; 109; 101; 33; 122; 125; 123; 114; 117; 108; 101; 95; 110; 97; 109; 101; 125], Err ValueError);
    ([123; 115; 116; 97; 114; 116; 95; 99; 111; 108; 125; 123; 114; 117; 108; 101; 95; 110; 97; 109; 101; 33; 122; 125], Err ValueError);
    ([125; 123; 109; 101; 115; 115; 97; 103; 101], Err ValueError);
    ([48; 32; 93], Ok [48; 32; 93]);
    ([123; 112; 97; 116; 104; 123; 114; 117; 108; 101; 95; 110; 97; 109; 101; 33; 123; 109; 101; 115; 115; 97; 103; 101; 125], Err ValueError);
    ([123; 123; 115; 123; 114; 117; 108; 101; 95; 110; 97; 109; 101; 125; 46; 123; 115; 116; 97; 114; 116; 95; 99; 111; 108; 33; 115; 125; 123; 112; 97; 116; 104; 58; 125], Ok [123; 115; 83; 111; 109; 101; 46; 52; 97; 47; 98; 46; 112; 121]);
    ([123; 109; 101; 115; 115; 97; 103; 101; 125; 123; 114; 117; 108; 101; 95; 110; 97; 109; 101; 125; 32], Ok [85; 115; 101; 32; 123; 120; 125; 32; 40; 104; 97; 115; 32; 97; 117; 116; 111; 102; 105; 120; 41; 83; 111; 109; 101; 32]);
    ([123; 114; 117; 108; 101; 95; 110; 97; 109; 101; 125; 93; 123; 112; 97; 116; 104; 125; 91; 123; 109; 101; 115; 115; 97; 103; 101; 125], Ok [83; 111; 109; 101; 93; 97; 47; 98; 46; 112; 121; 91; 85; 115; 101; 32; 123; 120; 125; 32; 40; 104; 97; 115; 32; 97; 117; 116; 111; 102; 105; 120; 41]);
    ([123; 115; 116; 97; 114; 116; 95; 99; 111; 108; 46; 123; 115; 116; 97; 114; 116; 95; 99; 111; 108; 125; 123], Err ValueError);
    ([46], Ok [46]);
    ([123; 115; 116; 97; 114; 116; 95; 99; 111; 108; 125; 123; 112; 97; 116; 104], Err ValueError);
    ([123; 109; 101; 115; 115; 97; 103; 101; 33; 115; 58; 125; 123; 114; 117; 108; 101; 95; 110; 97; 109; 101; 125; 123; 115; 116; 97; 114; 116; 95; 108; 105; 110; 101; 123; 115; 116; 97; 114; 116; 95; 108; 105; 110; 101; 33; 125; 125; 48], Err ValueError);
    ([123; 115; 116; 97; 114; 116; 95; 108; 105; 110; 101; 125; 123; 123; 112; 97; 116; 104; 33; 122; 125; 123; 125; 33; 122; 123], Err ValueError);
    ([115; 123; 115; 116; 97; 114; 116; 95; 99; 111; 108; 125; 123; 114; 117; 108; 101; 95; 110; 97; 109; 101; 123; 115; 116; 97; 114; 116; 95; 99; 111; 108], Err ValueError);
    ([123; 114; 117; 108; 101; 95; 110; 97; 109; 101; 125; 46; 123; 109; 101; 115; 115; 97; 103; 101; 125; 91; 123; 112; 97; 116; 104; 125; 123; 115; 116; 97; 114; 116; 95; 99; 111; 108; 58; 125], Ok [83; 111; 109; 101; 46; 85; 115; 101; 32; 123; 120; 125; 32; 40; 104; 97; 115; 32; 97; 117; 116; 111; 102; 105; 120; 41; 91; 97; 47; 98; 46; 112; 121; 52]);
    ([123; 123; 114; 117; 108; 101; 95; 110; 97; 109; 101; 123; 112; 97; 116; 104; 125], Ok [123; 114; 117; 108; 101; 95; 110; 97; 109; 101; 97; 47; 98; 46; 112; 121]);
    ([33; 125; 125; 123; 109; 101; 115; 115; 97; 103; 101; 125; 46], Ok [33; 125; 85; 115; 101; 32; 123; 120; 125; 32; 40; 104; 97; 115; 32; 97; 117; 116; 111; 102; 105; 120; 41; 46]);
    ([123; 112; 97; 116; 104; 125; 125; 123; 115; 116; 97; 114; 116; 95; 99; 111; 108; 125; 123; 125], Err ValueError);
    ([123; 112; 97; 116; 104; 58; 125], Ok [97; 47; 98; 46; 112; 121]);
    ([123; 115; 116; 97; 114; 116; 95; 99; 111; 108; 33; 122; 125; 93; 123; 115; 116; 97; 114; 116; 95; 99; 111; 108], Err ValueError);
    ([33; 122; 123; 123; 46], Ok [33; 122; 123; 46]);
    ([123; 109; 101; 115; 115; 97; 103; 101; 125; 123; 114; 117; 108; 101; 95; 110; 97; 109; 101], Err ValueError);
    ([58; 123; 115; 116; 97; 114; 116; 95; 108; 105; 110; 101; 125; 91; 125; 125; 48], Ok [58; 49; 50; 91; 125; 48]);
    ([123; 112; 97; 116; 104; 125; 123; 112; 97; 116; 104], Err ValueError);
    ([123; 109; 101; 115; 115; 97; 103; 101; 125; 123; 114; 117; 108; 101; 95; 110; 97; 109; 101; 125; 123; 115; 116; 97; 114; 116; 95; 108; 105; 110; 101; 58; 125; 123; 115; 116; 97; 114; 116; 95; 108; 105; 110; 101; 125; 123; 109; 101; 115; 115; 97; 103; 101; 125; 123; 123], Ok [85; 115; 101; 32; 123; 120; 125; 32; 40; 104; 97; 115; 32; 97; 117; 116; 111; 102; 105; 120; 41; 83; 111; 109; 101; 49; 50; 49; 50; 85; 115; 101; 32; 123; 120; 125; 32; 40; 104; 97; 115; 32; 97; 117; 116; 111; 102; 105; 120; 41; 123]);
    ([123; 114; 117; 108; 101; 95; 110; 97; 109; 101; 125; 123; 48; 125; 123; 114; 117; 108; 101; 95; 110; 97; 109; 101; 125; 123; 125; 125], Err IndexError);
    ([123; 115; 116; 97; 114; 116; 95; 108; 105; 110; 101; 33; 115; 125], Ok [49; 50]);
    ([123; 114; 117; 108; 101; 95; 110; 97; 109; 101; 33; 122; 125; 58; 123; 115; 116; 97; 114; 116; 95; 108; 105; 110; 101; 125; 123; 115; 116; 97; 114; 116; 95; 108; 105; 110; 101; 125], Err ValueError);
    ([123; 123; 123; 114; 117; 108; 101; 95; 110; 97; 109; 101; 33; 125; 123; 114; 117; 108; 101; 95; 110; 97; 109; 101; 125; 123; 109; 101; 115; 115; 97; 103; 101; 125; 123; 115; 116; 97; 114; 116; 95; 108; 105; 110; 101; 33; 122; 125; 33; 115], Err ValueError);
    ([123; 123; 112; 97; 116; 104; 125; 91], Err ValueError);
    ([33; 115], Ok [33; 115]);
    ([58; 123; 112; 97; 116; 104; 125; 123; 114; 117; 108; 101; 95; 110; 97; 109; 101; 125; 123; 109; 101; 115; 115; 97; 103; 101; 33; 115; 58; 125; 91; 123; 114; 117; 108; 101; 95; 110; 97; 109; 101], Err ValueError);
    ([123; 114; 117; 108; 101; 95; 110; 97; 109; 101; 123; 125; 123; 115; 116; 97; 114; 116; 95; 108; 105; 110; 101; 33; 115; 125; 123; 114; 117; 108; 101; 95; 110; 97; 109; 101; 125], Err ValueError);
    ([123; 115; 116; 97; 114; 116; 95; 99; 111; 108; 33; 125], Err ValueError);
    ([46; 123; 115; 116; 97; 114; 116; 95; 99; 111; 108; 123; 115; 116; 97; 114; 116; 95; 108; 105; 110; 101; 123; 112; 97; 116; 104], Err ValueError);
    ([32], Ok [32]);
    ([125; 125; 123; 115; 116; 97; 114; 116; 95; 108; 105; 110; 101; 123; 114; 117; 108; 101; 95; 110; 97; 109; 101; 125], Err ValueError);
    ([48], Ok [48]);
    ([123; 115; 116; 97; 114; 116; 95; 108; 105; 110; 101; 125; 123; 115; 116; 97; 114; 116; 95; 108; 105; 110; 101; 125; 123; 109; 101; 115; 115; 97; 103; 101; 125; 123; 109; 101; 115; 115; 97; 103; 101; 125], Ok [49; 50; 49; 50; 85; 115; 101; 32; 123; 120; 125; 32; 40; 104; 97; 115; 32; 97; 117; 116; 111; 102; 105; 120; 41; 85; 115; 101; 32; 123; 120; 125; 32; 40; 104; 97; 115; 32; 97; 117; 116; 111; 102; 105; 120; 41]);
    ([123; 112; 97; 116; 104; 125; 123; 115; 116; 97; 114; 116; 95; 99; 111; 108; 125; 123; 112; 97; 116; 104; 125], Ok [97; 47; 98; 46; 112; 121; 52; 97; 47; 98; 46; 112; 121]);
    ([33; 122; 123; 115; 116; 97; 114; 116; 95; 99; 111; 108; 125; 123; 114; 117; 108; 101; 95; 110; 97; 109; 101; 33; 115; 58; 125; 33; 115], Ok [33; 122; 52; 83; 111; 109; 101; 33; 115]);
    ([123; 109; 101; 115; 115; 97; 103; 101; 32; 123; 114; 117; 108; 101; 95; 110; 97; 109; 101; 125; 48], Err ValueError);
    ([32; 123; 77; 101; 115; 115; 97; 103; 101; 125; 33; 122; 123; 109; 101; 115; 115; 97; 103; 101; 58; 125], Err KeyError);
    ([32; 123; 112; 97; 116; 104; 125; 115; 58], Ok [32; 97; 47; 98; 46; 112; 121; 115; 58]);
    ([123; 115; 116; 97; 114; 116; 95; 108; 105; 110; 101; 33; 115; 58; 125; 123; 109; 101; 115; 115; 97; 103; 101; 125], Ok [49; 50; 85; 115; 101; 32; 123; 120; 125; 32; 40; 104; 97; 115; 32; 97; 117; 116; 111; 102; 105; 120; 41]);
    ([123; 109; 101; 115; 115; 97; 103; 101; 125; 123; 112; 97; 116; 104; 125; 123; 123; 48], Ok [85; 115; 101; 32; 123; 120; 125; 32; 40; 104; 97; 115; 32; 97; 117; 116; 111; 102; 105; 120; 41; 97; 47; 98; 46; 112; 121; 123; 48]);
    ([123; 115; 116; 97; 114; 116; 95; 99; 111; 108; 125; 123; 123; 112; 97; 116; 104; 125; 123; 112; 97; 116; 104; 125], Err ValueError);
    ([123; 115; 116; 97; 114; 116; 95; 99; 111; 108; 125; 123; 112; 97; 116; 104; 123; 114; 117; 108; 101; 95; 110; 97; 109; 101; 33; 122; 125; 123; 114; 117; 108; 101; 95; 110; 97; 109; 101; 125; 97], Err ValueError);
    ([123; 48; 125; 123; 55; 97; 125; 58; 48; 33; 115], Err IndexError);
    ([123; 112; 97; 116; 104; 33; 115; 125; 115], Ok [97; 47; 98; 46; 112; 121; 115]);
    ([48; 123; 109; 101; 115; 115; 97; 103; 101; 125; 125; 125; 97; 123; 48; 125], Err IndexError);
    ([46; 123; 112; 97; 116; 104; 33; 122; 125; 123; 114; 117; 108; 101; 95; 110; 97; 109; 101; 125; 123; 115; 116; 97; 114; 116; 95; 108; 105; 110; 101; 125], Err ValueError);
    ([91; 123; 115; 116; 97; 114; 116; 95; 108; 105; 110; 101; 125], Ok [91; 49; 50]);
    ([123; 112; 97; 116; 104; 125], Ok [97; 47; 98; 46; 112; 121]);
    ([123; 114; 117; 108; 101; 95; 110; 97; 109; 101; 125; 33; 122], Ok [83; 111; 109; 101; 33; 122]);
    ([123; 115; 116; 97; 114; 116; 95; 108; 105; 110; 101; 125; 123; 115; 116; 97; 114; 116; 95; 108; 105; 110; 101; 123; 112; 97; 116; 104; 125; 123; 109; 101; 115; 115; 97; 103; 101; 33; 122; 125], Err ValueError);
    ([123; 115; 116; 97; 114; 116; 95; 99; 111; 108; 125; 123; 114; 117; 108; 101; 95; 110; 97; 109; 101; 125; 93], Ok [52; 83; 111; 109; 101; 93]);
    ([123; 109; 101; 115; 115; 97; 103; 101; 125; 125; 93; 123; 110; 111; 112; 101; 125; 123; 46], Err ValueError);
    ([123; 48; 125; 123; 115; 116; 97; 114; 116; 95; 99; 111; 108; 97; 48; 32; 33], Err IndexError);
    ([123; 115; 116; 97; 114; 116; 95; 108; 105; 110; 101; 33; 115; 32; 125; 123; 114; 117; 108; 101; 95; 110; 97; 109; 101; 125; 33; 122; 33; 123; 115; 116; 97; 114; 116; 95; 99; 111; 108; 125; 58], Err ValueError);
    ([91; 123; 48; 125; 123; 115; 116; 97; 114; 116; 95; 99; 111; 108; 58; 125], Err IndexError);
    ([46; 123; 112; 97; 116; 104; 125], Ok [46; 97; 47; 98; 46; 112; 121]);
    ([123; 115; 116; 97; 114; 116; 95; 99; 111; 108; 125; 123; 109; 101; 115; 115; 97; 103; 101; 123; 109; 101; 115; 115; 97; 103; 101; 125; 123; 109; 101; 115; 115; 97; 103; 101; 125], Err ValueError);
    ([123; 109; 101; 115; 115; 97; 103; 101; 33; 115; 58; 125; 115; 123; 123; 48], Ok [85; 115; 101; 32; 123; 120; 125; 32; 40; 104; 97; 115; 32; 97; 117; 116; 111; 102; 105; 120; 41; 115; 123; 48]);
    ([115; 123; 55; 97; 125], Err KeyError);
    ([123; 115; 116; 97; 114; 116; 95; 99; 111; 108; 125; 58; 48; 123; 115; 116; 97; 114; 116; 95; 108; 105; 110; 101; 125; 123; 114; 117; 108; 101; 95; 110; 97; 109; 101], Err ValueError);
    ([123; 114; 117; 108; 101; 95; 110; 97; 109; 101; 125; 125; 123; 112; 97; 116; 104], Err ValueError);
    ([123; 114; 117; 108; 101; 95; 110; 97; 109; 101; 125; 91; 33; 32; 123; 112; 97; 116; 104; 125], Ok [83; 111; 109; 101; 91; 33; 32; 97; 47; 98; 46; 112; 121]);
    ([33; 122; 123; 112; 97; 116; 104; 125; 33; 122], Ok [33; 122; 97; 47; 98; 46; 112; 121; 33; 122]);
    ([32; 123; 109; 101; 115; 115; 97; 103; 101; 125; 125; 125; 123; 123; 123; 115; 116; 97; 114; 116; 95; 108; 105; 110; 101; 125; 123; 114; 117; 108; 101; 95; 110; 97; 109; 101; 33; 115; 58; 125], Ok [32; 85; 115; 101; 32; 123; 120; 125; 32; 40; 104; 97; 115; 32; 97; 117; 116; 111; 102; 105; 120; 41; 125; 123; 49; 50; 83; 111; 109; 101]);
    ([123; 110; 111; 112; 101; 125; 123; 125; 123; 115; 116; 97; 114; 116; 95; 108; 105; 110; 101; 125], Err KeyError);
    ([123; 109; 101; 115; 115; 97; 103; 101; 123; 114; 117; 108; 101; 95; 110; 97; 109; 101; 123; 114; 117; 108; 101; 95; 110; 97; 109; 101; 125; 125; 123], Err ValueError);
    ([58; 123; 115; 116; 97; 114; 116; 95; 108; 105; 110; 101; 125; 123; 112; 97; 116; 104; 33; 115; 125], Ok [58; 49; 50; 97; 47; 98; 46; 112; 121]);
    ([123; 109; 101; 115; 115; 97; 103; 101; 123; 55; 97; 125; 123; 112; 97; 116; 104; 125; 123; 115; 116; 97; 114; 116; 95; 99; 111; 108; 125; 93], Err ValueError);
    ([123; 115; 116; 97; 114; 116; 95; 108; 105; 110; 101; 125; 123; 115; 116; 97; 114; 116; 95; 108; 105; 110; 101; 33; 122; 125; 123; 115; 116; 97; 114; 116; 95; 108; 105; 110; 101; 125; 123; 112; 97; 116; 104; 125], Err ValueError);
    ([123; 123; 48; 123; 115; 116; 97; 114; 116; 95; 99; 111; 108; 125; 33; 115], Ok [123; 48; 52; 33; 115]);
    ([123; 115; 116; 97; 114; 116; 95; 108; 105; 110; 101; 33; 115; 32; 125; 123; 115; 116; 97; 114; 116; 95; 99; 111; 108; 33; 115], Err ValueError);
    ([97; 97; 123; 115; 116; 97; 114; 116; 95; 108; 105; 110; 101; 58; 125; 33; 122], Ok [97; 97; 49; 50; 33; 122]);
    ([123; 115; 116; 97; 114; 116; 95; 99; 111; 108; 123; 109; 101; 115; 115; 97; 103; 101; 33; 115; 58; 125; 33], Err ValueError);
    ([115; 91; 123; 114; 117; 108; 101; 95; 110; 97; 109; 101; 125; 32; 123; 109; 101; 115; 115; 97; 103; 101; 125; 125; 125], Ok [115; 91; 83; 111; 109; 101; 32; 85; 115; 101; 32; 123; 120; 125; 32; 40; 104; 97; 115; 32; 97; 117; 116; 111; 102; 105; 120; 41; 125]);
    ([123; 123; 110; 111; 112; 101; 125; 123; 112; 97; 116; 104; 123; 115; 116; 97; 114; 116; 95; 99; 111; 108; 32], Err ValueError);
    ([123; 115; 116; 97; 114; 116; 95; 108; 105; 110; 101; 33; 122; 125; 123; 112; 97; 116; 104; 123; 115; 116; 97; 114; 116; 95; 99; 111; 108; 125; 123; 109; 101; 115; 115; 97; 103; 101; 123; 112; 97; 116; 104; 125; 123; 115; 116; 97; 114; 116; 95; 108; 105; 110; 101; 125], Err ValueError);
    ([123; 123; 114; 117; 108; 101; 95; 110; 97; 109; 101; 125; 123; 112; 97; 116; 104; 125; 123; 115; 116; 97; 114; 116; 95; 99; 111; 108; 125; 115], Err ValueError);
    ([123; 115; 116; 97; 114; 116; 95; 108; 105; 110; 101; 33; 115; 125; 123; 109; 101; 115; 115; 97; 103; 101; 125], Ok [49; 50; 85; 115; 101; 32; 123; 120; 125; 32; 40; 104; 97; 115; 32; 97; 117; 116; 111; 102; 105; 120; 41]);
    ([33; 123; 112; 97; 116; 104; 125; 48; 123; 125], Err IndexError);
    ([123; 109; 101; 115; 115; 97; 103; 101; 125; 123; 114; 117; 108; 101; 95; 110; 97; 109; 101; 125], Ok [85; 115; 101; 32; 123; 120; 125; 32; 40; 104; 97; 115; 32; 97; 117; 116; 111; 102; 105; 120; 41; 83; 111; 109; 101]);
    ([123; 115; 116; 97; 114; 116; 95; 108; 105; 110; 101; 125; 123; 112; 97; 116; 104; 125; 123; 109; 101; 115; 115; 97; 103; 101; 125; 33], Ok [49; 50; 97; 47; 98; 46; 112; 121; 85; 115; 101; 32; 123; 120; 125; 32; 40; 104; 97; 115; 32; 97; 117; 116; 111; 102; 105; 120; 41; 33]);
    ([32; 123; 115; 116; 97; 114; 116; 95; 99; 111; 108; 125; 123; 123; 123; 115; 116; 97; 114; 116; 95; 99; 111; 108; 125; 123; 112; 97; 116; 104; 33; 115; 125; 125], Err ValueError);
    ([33; 123; 112; 97; 116; 104; 125; 123; 114; 117; 108; 101; 95; 110; 97; 109; 101; 58; 33; 122; 91], Err ValueError);
    ([123; 114; 117; 108; 101; 95; 110; 97; 109; 101; 125; 123; 123; 33; 123; 109; 101; 115; 115; 97; 103; 101; 125; 123; 110; 111; 112; 101; 125], Err KeyError);
    ([125; 123; 109; 101; 115; 115; 97; 103; 101; 123; 115; 116; 97; 114; 116; 95; 108; 105; 110; 101; 125; 123; 114; 117; 108; 101; 95; 110; 97; 109; 101; 125], Err ValueError);
    ([125; 123; 112; 97; 116; 104; 125; 123; 114; 117; 108; 101; 95; 110; 97; 109; 101; 125; 123], Err ValueError);
    ([123; 77; 101; 115; 115; 97; 103; 101; 125; 123; 115; 116; 97; 114; 116; 95; 99; 111; 108; 58; 125; 123; 115; 116; 97; 114; 116; 95; 108; 105; 110; 101; 125; 32; 123; 115; 116; 97; 114; 116; 95; 99; 111; 108; 58; 125], Err KeyError);
    ([123; 115; 116; 97; 114; 116; 95; 108; 105; 110; 101; 125; 33; 122; 123; 112; 97; 116; 104; 125; 123; 115; 116; 97; 114; 116; 95; 99; 111; 108; 125; 123; 115; 116; 97; 114; 116; 95; 99; 111; 108; 125], Ok [49; 50; 33; 122; 97; 47; 98; 46; 112; 121; 52; 52]);
    ([48; 46; 123; 115; 116; 97; 114; 116; 95; 99; 111; 108; 125; 123; 115; 116; 97; 114; 116; 95; 108; 105; 110; 101; 33], Err ValueError);
    ([123; 112; 97; 116; 104; 33; 115; 58; 125; 123; 109; 101; 115; 115; 97; 103; 101; 125; 48; 123; 115; 116; 97; 114; 116; 95; 99; 111; 108; 33; 115; 32; 125; 123; 109; 101; 115; 115; 97; 103; 101; 125], Err ValueError);
    ([91; 125; 125; 123; 123; 109; 101; 115; 115; 97; 103; 101; 125; 97], Err ValueError);
    ([48; 123; 115; 116; 97; 114; 116; 95; 108; 105; 110; 101; 125; 123; 77; 101; 115; 115; 97; 103; 101; 125; 123; 114; 117; 108; 101; 95; 110; 97; 109; 101; 125; 123; 115; 116; 97; 114; 116; 95; 99; 111; 108; 125], Err KeyError);
    ([91; 123; 123; 115; 116; 97; 114; 116; 95; 99; 111; 108; 125; 123; 112; 97; 116; 104; 33; 115; 32; 125; 123; 123; 115; 116; 97; 114; 116; 95; 108; 105; 110; 101; 125], Err ValueError);
    ([123; 115; 116; 97; 114; 116; 95; 99; 111; 108; 125; 123; 109; 101; 115; 115; 97; 103; 101], Err ValueError);
    ([123; 115; 116; 97; 114; 116; 95; 108; 105; 110; 101; 125; 123; 115; 116; 97; 114; 116; 95; 99; 111; 108; 125], Ok [49; 50; 52]);
    ([93], Ok [93]);
    ([46; 33; 123; 115; 116; 97; 114; 116; 95; 108; 105; 110; 101; 125; 115; 123; 125; 123; 114; 117; 108; 101; 95; 110; 97; 109; 101; 33; 125], Err IndexError);
    ([123; 115; 116; 97; 114; 116; 95; 108; 105; 110; 101; 125; 123; 123; 123; 55; 97; 125; 125; 125; 123; 109; 101; 115; 115; 97; 103; 101; 33; 115; 125; 123; 112; 97; 116; 104; 33; 115; 125], Err KeyError);
    ([33; 115; 123; 112; 97; 116; 104; 125; 123; 114; 117; 108; 101; 95; 110; 97; 109; 101; 123; 55; 97; 125; 93], Err ValueError);
    ([125; 125; 123; 115; 116; 97; 114; 116; 95; 99; 111; 108], Err ValueError);
    ([123; 114; 117; 108; 101; 95; 110; 97; 109; 101; 125], Ok [83; 111; 109; 101]);
    ([91; 123; 112; 97; 116; 104; 125; 33; 122], Ok [91; 97; 47; 98; 46; 112; 121; 33; 122]);
    ([123; 112; 97; 116; 104; 123; 114; 117; 108; 101; 95; 110; 97; 109; 101; 125; 123; 114; 117; 108; 101; 95; 110; 97; 109; 101; 125; 123; 112; 97; 116; 104; 125], Err ValueError);
    ([125; 123; 114; 117; 108; 101; 95; 110; 97; 109; 101; 125; 33; 115; 123; 115; 116; 97; 114; 116; 95; 99; 111; 108; 125; 123; 115; 116; 97; 114; 116; 95; 108; 105; 110; 101; 125; 33], Err ValueError);
    ([33; 115; 123; 112; 97; 116; 104; 125; 123; 112; 97; 116; 104; 123; 114; 117; 108; 101; 95; 110; 97; 109; 101; 125], Err ValueError);
    ([123; 115; 116; 97; 114; 116; 95; 108; 105; 110; 101; 33; 115; 32; 125; 123; 115; 116; 97; 114; 116; 95; 108; 105; 110; 101; 125; 123; 115; 116; 97; 114; 116; 95; 99; 111; 108; 125; 123; 123], Err ValueError);
    ([33; 122; 115], Ok [33; 122; 115]);
    ([123; 114; 117; 108; 101; 95; 110; 97; 109; 101; 33; 115; 125; 123; 114; 117; 108; 101; 95; 110; 97; 109; 101; 125], Ok [83; 111; 109; 101; 83; 111; 109; 101]);
    ([123; 123; 123; 109; 101; 115; 115; 97; 103; 101; 125; 33; 115], Ok [123; 85; 115; 101; 32; 123; 120; 125; 32; 40; 104; 97; 115; 32; 97; 117; 116; 111; 102; 105; 120; 41; 33; 115]);
    ([123; 114; 117; 108; 101; 95; 110; 97; 109; 101; 125; 125; 125; 125; 123; 114; 117; 108; 101; 95; 110; 97; 109; 101; 48], Err ValueError);
    ([123; 114; 117; 108; 101; 95; 110; 97; 109; 101; 125; 123; 115; 116; 97; 114; 116; 95; 99; 111; 108; 125; 123; 115; 116; 97; 114; 116; 95; 99; 111; 108; 125], Ok [83; 111; 109; 101; 52; 52]);
    ([123; 48; 125], Err IndexError);
    ([123; 48; 125; 123; 115; 116; 97; 114; 116; 95; 99; 111; 108; 125; 123; 112; 97; 116; 104; 125], Err IndexError);
    ([125; 125; 123; 114; 117; 108; 101; 95; 110; 97; 109; 101; 48], Err ValueError);
    ([123; 48; 125; 33; 122], Err IndexError);
    ([123; 125; 123; 109; 101; 115; 115; 97; 103; 101; 33; 122; 125], Err IndexError);
    ([123; 115; 116; 97; 114; 116; 95; 99; 111; 108; 125; 33; 123; 48; 125], Err IndexError);
    ([123; 109; 101; 115; 115; 97; 103; 101; 125; 123; 114; 117; 108; 101; 95; 110; 97; 109; 101; 125; 123; 114; 117; 108; 101; 95; 110; 97; 109; 101], Err ValueError);
    ([93; 123; 77; 101; 115; 115; 97; 103; 101; 125; 123; 114; 117; 108; 101; 95; 110; 97; 109; 101; 125; 123; 112; 97; 116; 104; 125; 93; 123; 115; 116; 97; 114; 116; 95; 108; 105; 110; 101; 125], Err KeyError);
    ([125; 123; 115; 116; 97; 114; 116; 95; 99; 111; 108; 125; 115; 115], Err ValueError);
    ([123; 115; 116; 97; 114; 116; 95; 99; 111; 108; 125; 123; 109; 101; 115; 115; 97; 103; 101; 33; 115; 125; 33; 123; 112; 97; 116; 104; 125; 123; 109; 101; 115; 115; 97; 103; 101; 125], Ok [52; 85; 115; 101; 32; 123; 120; 125; 32; 40; 104; 97; 115; 32; 97; 117; 116; 111; 102; 105; 120; 41; 33; 97; 47; 98; 46; 112; 121; 85; 115; 101; 32; 123; 120; 125; 32; 40; 104; 97; 115; 32; 97; 117; 116; 111; 102; 105; 120; 41]);
    ([123; 123; 115; 116; 97; 114; 116; 95; 99; 111; 108; 125; 48; 123; 115; 116; 97; 114; 116; 95; 108; 105; 110; 101; 32], Err ValueError);
    ([58; 123; 109; 101; 115; 115; 97; 103; 101; 125; 58; 125; 125; 93; 123; 112; 97; 116; 104; 125], Ok [58; 85; 115; 101; 32; 123; 120; 125; 32; 40; 104; 97; 115; 32; 97; 117; 116; 111; 102; 105; 120; 41; 58; 125; 93; 97; 47; 98; 46; 112; 121]);
    ([123; 115; 116; 97; 114; 116; 95; 108; 105; 110; 101; 125; 48], Ok [49; 50; 48]);
    ([123; 115; 116; 97; 114; 116; 95; 99; 111; 108; 125; 123; 115; 116; 97; 114; 116; 95; 108; 105; 110; 101; 125; 123; 125; 123; 112; 97; 116; 104; 33; 125; 32], Err IndexError);
    ([33; 122], Ok [33; 122]);
    ([123; 125; 115; 123; 123; 115; 116; 97; 114; 116; 95; 99; 111; 108; 125; 123; 115; 116; 97; 114; 116; 95; 99; 111; 108; 123; 114; 117; 108; 101; 95; 110; 97; 109; 101; 125], Err IndexError);
    ([58; 123; 112; 97; 116; 104; 125; 97], Ok [58; 97; 47; 98; 46; 112; 121; 97]);
    ([123; 115; 116; 97; 114; 116; 95; 99; 111; 108; 123; 123], Err ValueError);
    ([33; 123; 123; 123; 115; 116; 97; 114; 116; 95; 108; 105; 110; 101; 125; 125; 125; 123], Err ValueError);
    ([123; 112; 97; 116; 104; 123; 114; 117; 108; 101; 95; 110; 97; 109; 101; 125; 123; 115; 116; 97; 114; 116; 95; 99; 111; 108; 33; 122; 125; 123; 123], Err ValueError);
    ([123; 109; 101; 115; 115; 97; 103; 101; 123; 109; 101; 115; 115; 97; 103; 101; 33; 125; 123; 123; 123; 114; 117; 108; 101; 95; 110; 97; 109; 101; 33; 122; 125; 97; 125; 125], Err ValueError);
    ([115; 91; 123; 112; 97; 116; 104; 33; 125; 123; 112; 97; 116; 104; 125], Err ValueError);
    ([123; 109; 101; 115; 115; 97; 103; 101; 125; 123; 114; 117; 108; 101; 95; 110; 97; 109; 101; 115; 123; 114; 117; 108; 101; 95; 110; 97; 109; 101; 125], Err ValueError);
    ([123; 109; 101; 115; 115; 97; 103; 101; 125; 123; 109; 101; 115; 115; 97; 103; 101; 125; 33; 123; 123; 115; 116; 97; 114; 116; 95; 99; 111; 108; 125], Err ValueError);
    ([125; 125; 115], Ok [125; 115]);
    ([123; 114; 117; 108; 101; 95; 110; 97; 109; 101; 125; 115; 123; 112; 97; 116; 104; 123; 115; 116; 97; 114; 116; 95; 108; 105; 110; 101], Err ValueError);
    ([123; 114; 117; 108; 101; 95; 110; 97; 109; 101; 125; 48; 123; 109; 101; 115; 115; 97; 103; 101; 33; 115; 125], Ok [83; 111; 109; 101; 48; 85; 115; 101; 32; 123; 120; 125; 32; 40; 104; 97; 115; 32; 97; 117; 116; 111; 102; 105; 120; 41]);
    ([123; 115; 116; 97; 114; 116; 95; 108; 105; 110; 101; 125; 123; 115; 116; 97; 114; 116; 95; 108; 105; 110; 101; 125; 123; 125], Err IndexError);
    ([123; 112; 97; 116; 104; 125; 46; 123; 48; 125; 97; 48], Err IndexError);
    ([115; 123; 115; 116; 97; 114; 116; 95; 108; 105; 110; 101; 125; 123; 115; 116; 97; 114; 116; 95; 108; 105; 110; 101; 125; 123; 114; 117; 108; 101; 95; 110; 97; 109; 101; 125], Ok [115; 49; 50; 49; 50; 83; 111; 109; 101]);
    ([33; 122; 48; 93; 58], Ok [33; 122; 48; 93; 58]);
    ([123; 114; 117; 108; 101; 95; 110; 97; 109; 101; 125; 123; 114; 117; 108; 101; 95; 110; 97; 109; 101; 123; 112; 97; 116; 104; 125], Err ValueError);
    ([123; 112; 97; 116; 104; 125; 123; 114; 117; 108; 101; 95; 110; 97; 109; 101; 125], Ok [97; 47; 98; 46; 112; 121; 83; 111; 109; 101]);
    ([123; 109; 101; 115; 115; 97; 103; 101; 33; 122; 125; 123; 115; 116; 97; 114; 116; 95; 99; 111; 108], Err ValueError);
    ([123; 112; 97; 116; 104; 125; 123; 115; 116; 97; 114; 116; 95; 108; 105; 110; 101; 125], Ok [97; 47; 98; 46; 112; 121; 49; 50]);
    ([123; 114; 117; 108; 101; 95; 110; 97; 109; 101], Err ValueError);
    ([123; 125; 123; 125; 125; 32], Err IndexError);
    ([48; 123; 109; 101; 115; 115; 97; 103; 101; 33; 115; 125; 93], Ok [48; 85; 115; 101; 32; 123; 120; 125; 32; 40; 104; 97; 115; 32; 97; 117; 116; 111; 102; 105; 120; 41; 93]);
    ([123; 123; 115; 116; 97; 114; 116; 95; 108; 105; 110; 101; 125; 123; 115; 116; 97; 114; 116; 95; 99; 111; 108; 125; 93], Err ValueError);
    ([123; 115; 116; 97; 114; 116; 95; 108; 105; 110; 101; 125; 46; 115], Ok [49; 50; 46; 115]);
    ([123; 55; 97; 125; 123; 115; 116; 97; 114; 116; 95; 99; 111; 108; 91; 123; 109; 101; 115; 115; 97; 103; 101; 125; 123; 115; 116; 97; 114; 116; 95; 99; 111; 108; 123; 115; 116; 97; 114; 116; 95; 108; 105; 110; 101; 58; 125], Err KeyError);
    ([123; 114; 117; 108; 101; 95; 110; 97; 109; 101; 125; 123; 115; 116; 97; 114; 116; 95; 99; 111; 108; 125; 123; 114; 117; 108; 101; 95; 110; 97; 109; 101; 125; 58; 123; 115; 116; 97; 114; 116; 95; 99; 111; 108; 125], Ok [83; 111; 109; 101; 52; 83; 111; 109; 101; 58; 52]);
    ([123; 112; 97; 116; 104; 33; 122; 125; 123; 112; 97; 116; 104; 125; 93; 123; 123; 48], Err ValueError);
    ([123; 115; 116; 97; 114; 116; 95; 108; 105; 110; 101; 125; 33; 115; 123; 109; 101; 115; 115; 97; 103; 101; 125; 125; 125; 123; 125; 123; 115; 116; 97; 114; 116; 95; 108; 105; 110; 101; 125], Err IndexError);
    ([33; 115; 125; 97; 123; 115; 116; 97; 114; 116; 95; 108; 105; 110; 101; 125], Err ValueError);
    ([123; 114; 117; 108; 101; 95; 110; 97; 109; 101; 125; 123; 114; 117; 108; 101; 95; 110; 97; 109; 101; 125; 125; 125], Ok [83; 111; 109; 101; 83; 111; 109; 101; 125]);
    ([123; 112; 97; 116; 104; 125; 123; 91], Err ValueError);
    ([125; 123; 112; 97; 116; 104; 125; 123; 114; 117; 108; 101; 95; 110; 97; 109; 101; 46], Err ValueError);
    ([123; 115; 116; 97; 114; 116; 95; 99; 111; 108; 123; 114; 117; 108; 101; 95; 110; 97; 109; 101; 33; 115; 32; 125], Err ValueError);
    ([33; 125; 125; 123; 123], Ok [33; 125; 123]);
    ([123; 115; 116; 97; 114; 116; 95; 108; 105; 110; 101; 125; 123; 125], Err IndexError);
    ([123; 114; 117; 108; 101; 95; 110; 97; 109; 101; 125; 58; 123; 109; 101; 115; 115; 97; 103; 101; 125], Ok [83; 111; 109; 101; 58; 85; 115; 101; 32; 123; 120; 125; 32; 40; 104; 97; 115; 32; 97; 117; 116; 111; 102; 105; 120; 41]);
    ([123; 114; 117; 108; 101; 95; 110; 97; 109; 101; 33; 122; 125; 123; 109; 101; 115; 115; 97; 103; 101; 125; 115; 123; 115; 116; 97; 114; 116; 95; 108; 105; 110; 101; 33; 122; 125; 123; 112; 97; 116; 104; 125; 123; 109; 101; 115; 115; 97; 103; 101], Err ValueError);
    ([123; 115; 116; 97; 114; 116; 95; 99; 111; 108; 123; 115; 116; 97; 114; 116; 95; 108; 105; 110; 101; 125; 123; 109; 101; 115; 115; 97; 103; 101; 125], Err ValueError);
    ([125; 33; 115; 123; 115; 116; 97; 114; 116; 95; 99; 111; 108; 125], Err ValueError);
    ([123; 115; 116; 97; 114; 116; 95; 99; 111; 108; 125; 33; 115; 58; 123; 114; 117; 108; 101; 95; 110; 97; 109; 101; 33; 125], Err ValueError);
    ([33; 123; 109; 101; 115; 115; 97; 103; 101; 125; 125; 125; 123; 114; 117; 108; 101; 95; 110; 97; 109; 101; 125], Ok [33; 85; 115; 101; 32; 123; 120; 125; 32; 40; 104; 97; 115; 32; 97; 117; 116; 111; 102; 105; 120; 41; 125; 83; 111; 109; 101]);
    ([123; 114; 117; 108; 101; 95; 110; 97; 109; 101; 123; 114; 117; 108; 101; 95; 110; 97; 109; 101; 33; 115; 58; 125], Err ValueError);
    ([123; 109; 101; 115; 115; 97; 103; 101; 125; 123; 125; 123; 114; 117; 108; 101; 95; 110; 97; 109; 101; 125; 123; 109; 101; 115; 115; 97; 103; 101; 125; 93], Err IndexError);
    ([123; 109; 101; 115; 115; 97; 103; 101; 125; 123; 123; 123; 48; 125; 123; 115; 116; 97; 114; 116; 95; 108; 105; 110; 101; 125; 123; 115; 116; 97; 114; 116; 95; 108; 105; 110; 101; 125; 123; 112; 97; 116; 104; 125], Err IndexError);
    ([93; 123; 109; 101; 115; 115; 97; 103; 101; 125; 93], Ok [93; 85; 115; 101; 32; 123; 120; 125; 32; 40; 104; 97; 115; 32; 97; 117; 116; 111; 102; 105; 120; 41; 93]);
    ([32; 123; 115; 116; 97; 114; 116; 95; 108; 105; 110; 101; 125; 123; 114; 117; 108; 101; 95; 110; 97; 109; 101; 125; 33; 122], Ok [32; 49; 50; 83; 111; 109; 101; 33; 122]);
    ([123; 109; 101; 115; 115; 97; 103; 101; 125; 123; 115; 116; 97; 114; 116; 95; 108; 105; 110; 101; 125; 32; 123; 115; 116; 97; 114; 116; 95; 99; 111; 108; 125], Ok [85; 115; 101; 32; 123; 120; 125; 32; 40; 104; 97; 115; 32; 97; 117; 116; 111; 102; 105; 120; 41; 49; 50; 32; 52]);
    ([97; 123; 123; 115; 116; 97; 114; 116; 95; 99; 111; 108; 125], Err ValueError);
    ([123; 109; 101; 115; 115; 97; 103; 101; 125; 123; 115; 116; 97; 114; 116; 95; 108; 105; 110; 101; 125; 123; 109; 101; 115; 115; 97; 103; 101; 123; 112; 97; 116; 104], Err ValueError);
    ([123; 115; 116; 97; 114; 116; 95; 108; 105; 110; 101; 125; 123; 114; 117; 108; 101; 95; 110; 97; 109; 101; 125; 125; 125; 123; 115; 116; 97; 114; 116; 95; 99; 111; 108; 123; 112; 97; 116; 104; 125; 123; 112; 97; 116; 104], Err ValueError);
    ([123; 112; 97; 116; 104; 125; 125; 33; 122; 123; 115; 116; 97; 114; 116; 95; 108; 105; 110; 101; 125; 123; 115; 116; 97; 114; 116; 95; 99; 111; 108], Err ValueError);
    ([97; 125; 123; 109; 101; 115; 115; 97; 103; 101; 33; 115; 125; 123; 109; 101; 115; 115; 97; 103; 101; 125; 46], Err ValueError);
    ([123; 115; 116; 97; 114; 116; 95; 108; 105; 110; 101; 125; 115; 123; 114; 117; 108; 101; 95; 110; 97; 109; 101; 125; 33; 122], Ok [49; 50; 115; 83; 111; 109; 101; 33; 122]);
    ([48; 123; 115; 116; 97; 114; 116; 95; 99; 111; 108; 125; 123; 112; 97; 116; 104; 125; 123; 109; 101; 115; 115; 97; 103; 101; 125; 115; 123; 115; 116; 97; 114; 116; 95; 99; 111; 108; 125], Ok [48; 52; 97; 47; 98; 46; 112; 121; 85; 115; 101; 32; 123; 120; 125; 32; 40; 104; 97; 115; 32; 97; 117; 116; 111; 102; 105; 120; 41; 115; 52]);
    ([32; 123; 112; 97; 116; 104], Err ValueError);
    ([32; 115; 33; 33; 123; 109; 101; 115; 115; 97; 103; 101; 125], Ok [32; 115; 33; 33; 85; 115; 101; 32; 123; 120; 125; 32; 40; 104; 97; 115; 32; 97; 117; 116; 111; 102; 105; 120; 41]);
    ([115; 123; 115; 116; 97; 114; 116; 95; 99; 111; 108; 33; 115; 58; 125; 123; 110; 111; 112; 101; 125; 123; 115; 116; 97; 114; 116; 95; 108; 105; 110; 101; 125], Err KeyError);
    ([123; 112; 97; 116; 104; 125; 46; 123; 114; 117; 108; 101; 95; 110; 97; 109; 101; 33; 115; 58; 125; 123; 125; 123; 115; 116; 97; 114; 116; 95; 108; 105; 110; 101], Err IndexError);
    ([58; 123; 109; 101; 115; 115; 97; 103; 101; 58; 125; 58; 58], Ok [58; 85; 115; 101; 32; 123; 120; 125; 32; 40; 104; 97; 115; 32; 97; 117; 116; 111; 102; 105; 120; 41; 58; 58]);
    ([97; 123; 115; 116; 97; 114; 116; 95; 108; 105; 110; 101; 125; 123; 123; 115; 116; 97; 114; 116; 95; 99; 111; 108; 125; 123; 114; 117; 108; 101; 95; 110; 97; 109; 101; 125], Err ValueError);
    ([123; 115; 116; 97; 114; 116; 95; 99; 111; 108; 58; 123; 114; 117; 108; 101; 95; 110; 97; 109; 101; 33; 125], Err ValueError);
    ([123; 115; 116; 97; 114; 116; 95; 99; 111; 108; 125; 97; 123; 109; 101; 115; 115; 97; 103; 101; 125; 123; 112; 97; 116; 104; 125; 93; 123; 115; 116; 97; 114; 116; 95; 99; 111; 108; 125], Ok [52; 97; 85; 115; 101; 32; 123; 120; 125; 32; 40; 104; 97; 115; 32; 97; 117; 116; 111; 102; 105; 120; 41; 97; 47; 98; 46; 112; 121; 93; 52]);
    ([123; 109; 101; 115; 115; 97; 103; 101; 33; 125], Err ValueError);
    ([93; 91], Ok [93; 91]);
    ([91; 123; 115; 116; 97; 114; 116; 95; 99; 111; 108; 123; 109; 101; 115; 115; 97; 103; 101; 33; 115; 125; 33; 115; 123; 123; 123; 115; 116; 97; 114; 116; 95; 99; 111; 108; 33; 115; 32; 125], Err ValueError);
    ([33; 115; 123; 109; 101; 115; 115; 97; 103; 101; 125; 97; 123; 115; 116; 97; 114; 116; 95; 108; 105; 110; 101; 33; 115; 32; 125], Err ValueError);
    ([93; 123; 112; 97; 116; 104; 123; 114; 117; 108; 101; 95; 110; 97; 109; 101; 125], Err ValueError);
    ([123; 109; 101; 115; 115; 97; 103; 101; 125; 123; 114; 117; 108; 101; 95; 110; 97; 109; 101; 125; 123; 110; 111; 112; 101; 125; 32; 123; 115; 116; 97; 114; 116; 95; 99; 111; 108; 33; 122; 125], Err KeyError);
    ([115; 123; 115; 116; 97; 114; 116; 95; 99; 111; 108; 123; 112; 97; 116; 104; 125; 58], Err ValueError);
    ([123; 112; 97; 116; 104; 125; 115], Ok [97; 47; 98; 46; 112; 121; 115]);
    ([93; 123; 115; 116; 97; 114; 116; 95; 108; 105; 110; 101; 33; 125; 58; 123; 123; 123; 55; 97; 125], Err ValueError);
    ([123; 115; 116; 97; 114; 116; 95; 99; 111; 108; 125; 123; 114; 117; 108; 101; 95; 110; 97; 109; 101; 125; 123; 115; 116; 97; 114; 116; 95; 99; 111; 108; 33; 125], Err ValueError);
    ([123; 112; 97; 116; 104; 33; 122; 125; 125; 123; 115; 116; 97; 114; 116; 95; 99; 111; 108], Err ValueError);
    ([123; 55; 97; 125; 123; 112; 97; 116; 104; 125; 125; 33; 122; 123], Err KeyError);
    ([123; 112; 97; 116; 104; 33; 125; 123; 55; 97; 125; 123; 114; 117; 108; 101; 95; 110; 97; 109; 101; 125; 125; 123; 112; 97; 116; 104; 125; 123; 112; 97; 116; 104; 125], Err ValueError);
    ([58; 123; 112; 97; 116; 104; 125; 123; 114; 117; 108; 101; 95; 110; 97; 109; 101; 58; 123; 114; 117; 108; 101; 95; 110; 97; 109; 101; 125], Err ValueError);
    ([46; 125; 123; 109; 101; 115; 115; 97; 103; 101; 125; 123; 114; 117; 108; 101; 95; 110; 97; 109; 101; 125; 33], Err ValueError);
    ([123; 114; 117; 108; 101; 95; 110; 97; 109; 101; 123; 48; 125; 123; 114; 117; 108; 101; 95; 110; 97; 109; 101; 125], Err ValueError);
    ([123; 115; 116; 97; 114; 116; 95; 99; 111; 108; 125; 123; 115; 116; 97; 114; 116; 95; 108; 105; 110; 101; 125; 91; 123; 112; 97; 116; 104; 125; 123; 115; 116; 97; 114; 116; 95; 108; 105; 110; 101], Err ValueError);
    ([123; 109; 101; 115; 115; 97; 103; 101; 125; 123; 114; 117; 108; 101; 95; 110; 97; 109; 101; 33; 115; 32; 125; 125; 125; 123; 48; 125; 123; 112; 97; 116; 104; 125; 33; 122], Err ValueError);
    ([123; 114; 117; 108; 101; 95; 110; 97; 109; 101; 125; 125], Err ValueError);
    ([93; 33; 125; 125; 123; 114; 117; 108; 101; 95; 110; 97; 109; 101; 125], Ok [93; 33; 125; 83; 111; 109; 101]);
    ([123; 112; 97; 116; 104; 58; 125; 93; 123; 109; 101; 115; 115; 97; 103; 101; 125], Ok [97; 47; 98; 46; 112; 121; 93; 85; 115; 101; 32; 123; 120; 125; 32; 40; 104; 97; 115; 32; 97; 117; 116; 111; 102; 105; 120; 41]);
    ([123; 115; 116; 97; 114; 116; 95; 108; 105; 110; 101; 123; 115; 116; 97; 114; 116; 95; 99; 111; 108; 123; 112; 97; 116; 104; 123; 114; 117; 108; 101; 95; 110; 97; 109; 101; 125], Err ValueError);
    ([123; 125; 125; 123; 115; 116; 97; 114; 116; 95; 99; 111; 108; 33; 115; 125; 123; 115; 116; 97; 114; 116; 95; 99; 111; 108; 125; 123; 115; 116; 97; 114; 116; 95; 108; 105; 110; 101; 125], Err IndexError);
    ([123; 114; 117; 108; 101; 95; 110; 97; 109; 101; 125; 33; 122; 32], Ok [83; 111; 109; 101; 33; 122; 32]);
    ([32; 91], Ok [32; 91]);
    ([93; 123; 115; 116; 97; 114; 116; 95; 108; 105; 110; 101; 123; 112; 97; 116; 104; 125; 123; 115; 116; 97; 114; 116; 95; 108; 105; 110; 101; 125], Err ValueError);
    ([123; 123; 114; 117; 108; 101; 95; 110; 97; 109; 101; 125], Err ValueError);
    ([123; 123; 112; 97; 116; 104; 33; 115; 125; 33; 122], Err ValueError);
    ([93; 123; 123; 112; 97; 116; 104; 33; 122; 125; 115; 123; 112; 97; 116; 104; 33; 115; 58; 125], Err ValueError);
    ([123; 112; 97; 116; 104; 125; 123; 115; 116; 97; 114; 116; 95; 108; 105; 110; 101; 125; 123; 114; 117; 108; 101; 95; 110; 97; 109; 101; 33; 125; 33; 115], Err ValueError);
    ([123; 115; 116; 97; 114; 116; 95; 99; 111; 108; 125; 123; 112; 97; 116; 104; 125; 123; 115; 116; 97; 114; 116; 95; 99; 111; 108; 125; 123; 48; 125; 123; 115; 116; 97; 114; 116; 95; 108; 105; 110; 101; 125; 123; 115; 116; 97; 114; 116; 95; 108; 105; 110; 101; 125], Err IndexError);
    ([123; 109; 101; 115; 115; 97; 103; 101; 125; 123; 112; 97; 116; 104; 125; 123; 115; 116; 97; 114; 116; 95; 108; 105; 110; 101; 125; 123; 112; 97; 116; 104; 125; 48], Ok [85; 115; 101; 32; 123; 120; 125; 32; 40; 104; 97; 115; 32; 97; 117; 116; 111; 102; 105; 120; 41; 97; 47; 98; 46; 112; 121; 49; 50; 97; 47; 98; 46; 112; 121; 48]);
    ([123; 109; 101; 115; 115; 97; 103; 101; 33; 122], Err ValueError);
    ([123; 109; 101; 115; 115; 97; 103; 101; 33; 122; 125; 123; 112; 97; 116; 104], Err ValueError);
    ([125; 97; 123; 112; 97; 116; 104; 33; 122; 125], Err ValueError);
    ([58; 125; 125; 123; 114; 117; 108; 101; 95; 110; 97; 109; 101; 33; 125; 123; 109; 101; 115; 115; 97; 103; 101; 123; 110; 111; 112; 101; 125; 123; 109; 101; 115; 115; 97; 103; 101; 125], Err ValueError);
    ([115; 123; 123; 123; 112; 97; 116; 104; 125; 125; 125], Ok [115; 123; 97; 47; 98; 46; 112; 121; 125]);
    ([123; 112; 97; 116; 104; 125; 123; 114; 117; 108; 101; 95; 110; 97; 109; 101; 125; 125; 125], Ok [97; 47; 98; 46; 112; 121; 83; 111; 109; 101; 125]);
    ([123; 112; 97; 116; 104; 125; 46], Ok [97; 47; 98; 46; 112; 121; 46]);
    ([123; 48; 125; 32; 123; 109; 101; 115; 115; 97; 103; 101; 125; 46; 123; 109; 101; 115; 115; 97; 103; 101; 125; 123; 114; 117; 108; 101; 95; 110; 97; 109; 101; 125], Err IndexError);
    ([123; 114; 117; 108; 101; 95; 110; 97; 109; 101; 123; 115; 116; 97; 114; 116; 95; 108; 105; 110; 101], Err ValueError);
    ([123; 115; 116; 97; 114; 116; 95; 108; 105; 110; 101; 33; 115; 58; 125; 125; 123; 123; 114; 117; 108; 101; 95; 110; 97; 109; 101; 125; 32], Err ValueError);
    ([123; 112; 97; 116; 104; 93; 123; 114; 117; 108; 101; 95; 110; 97; 109; 101; 123; 77; 101; 115; 115; 97; 103; 101; 125; 123; 77; 101; 115; 115; 97; 103; 101; 125; 33; 115], Err ValueError);
    ([123; 112; 97; 116; 104; 125; 93; 123; 115; 116; 97; 114; 116; 95; 108; 105; 110; 101; 125; 123; 109; 101; 115; 115; 97; 103; 101; 33; 115; 58; 125], Ok [97; 47; 98; 46; 112; 121; 93; 49; 50; 85; 115; 101; 32; 123; 120; 125; 32; 40; 104; 97; 115; 32; 97; 117; 116; 111; 102; 105; 120; 41]);
    ([123; 115; 116; 97; 114; 116; 95; 99; 111; 108; 125; 125; 125], Ok [52; 125]);
    ([125; 123; 125; 123; 112; 97; 116; 104; 125; 123; 109; 101; 115; 115; 97; 103; 101; 125], Err ValueError);
    ([123; 115; 116; 97; 114; 116; 95; 108; 105; 110; 101; 125; 123; 115; 116; 97; 114; 116; 95; 99; 111; 108; 123; 114; 117; 108; 101; 95; 110; 97; 109; 101; 125], Err ValueError);
    ([123; 115; 116; 97; 114; 116; 95; 108; 105; 110; 101; 33; 125; 115], Err ValueError);
    ([123; 114; 117; 108; 101; 95; 110; 97; 109; 101; 123; 115; 116; 97; 114; 116; 95; 99; 111; 108; 125; 123; 115; 116; 97; 114; 116; 95; 108; 105; 110; 101; 125; 32; 33; 115], Err ValueError);
    ([123; 114; 117; 108; 101; 95; 110; 97; 109; 101; 32; 125; 125; 123; 115; 116; 97; 114; 116; 95; 99; 111; 108; 123; 114; 117; 108; 101; 95; 110; 97; 109; 101; 125], Err KeyError);
    ([93; 58; 123; 110; 111; 112; 101; 125], Err KeyError);
    ([48; 123; 115; 116; 97; 114; 116; 95; 99; 111; 108; 93; 123; 48; 125], Err ValueError);
    ([123; 115; 116; 97; 114; 116; 95; 108; 105; 110; 101; 123; 110; 111; 112; 101; 125; 123; 115; 116; 97; 114; 116; 95; 99; 111; 108; 125; 123; 112; 97; 116; 104; 125], Err ValueError);
    ([123; 115; 116; 97; 114; 116; 95; 99; 111; 108; 33], Err ValueError);
    ([33; 122; 123; 114; 117; 108; 101; 95; 110; 97; 109; 101; 125], Ok [33; 122; 83; 111; 109; 101]);
    ([123; 109; 101; 115; 115; 97; 103; 101; 125; 123; 55; 97; 125; 123; 114; 117; 108; 101; 95; 110; 97; 109; 101; 125; 33; 122; 123; 112; 97; 116; 104], Err KeyError);
    ([123; 115; 116; 97; 114; 116; 95; 99; 111; 108; 125; 93; 93; 123; 114; 117; 108; 101; 95; 110; 97; 109; 101; 125; 48; 125], Err ValueError);
    ([123; 112; 97; 116; 104; 125; 123; 109; 101; 115; 115; 97; 103; 101; 125; 93; 123; 115; 116; 97; 114; 116; 95; 108; 105; 110; 101; 125], Ok [97; 47; 98; 46; 112; 121; 85; 115; 101; 32; 123; 120; 125; 32; 40; 104; 97; 115; 32; 97; 117; 116; 111; 102; 105; 120; 41; 93; 49; 50]);
    ([32; 97; 123; 112; 97; 116; 104; 125; 123; 114; 117; 108; 101; 95; 110; 97; 109; 101; 125; 33; 123; 115; 116; 97; 114; 116; 95; 108; 105; 110; 101; 125], Ok [32; 97; 97; 47; 98; 46; 112; 121; 83; 111; 109; 101; 33; 49; 50]);
    ([33; 91; 46; 123; 123; 115; 116; 97; 114; 116; 95; 99; 111; 108; 33; 122; 125; 97], Err ValueError);
    ([123; 115; 116; 97; 114; 116; 95; 99; 111; 108], Err ValueError);
    ([125; 125; 123; 114; 117; 108; 101; 95; 110; 97; 109; 101; 58; 125; 123; 112; 97; 116; 104; 125; 123; 125; 123; 115; 116; 97; 114; 116; 95; 108; 105; 110; 101; 125; 46], Err IndexError);
    ([123; 114; 117; 108; 101; 95; 110; 97; 109; 101; 123; 125], Err ValueError);
    ([123; 115; 116; 97; 114; 116; 95; 99; 111; 108; 125; 58; 123; 112; 97; 116; 104; 125; 123; 115; 116; 97; 114; 116; 95; 99; 111; 108; 123; 109; 101; 115; 115; 97; 103; 101; 125], Err ValueError);
    ([123; 115; 116; 97; 114; 116; 95; 99; 111; 108; 33; 122; 123; 112; 97; 116; 104; 125; 58; 123; 114; 117; 108; 101; 95; 110; 97; 109; 101; 125; 123; 114; 117; 108; 101; 95; 110; 97; 109; 101; 58; 125], Err ValueError);
    ([123; 115; 116; 97; 114; 116; 95; 108; 105; 110; 101; 125; 123; 115; 116; 97; 114; 116; 95; 99; 111; 108; 33; 115; 125; 32], Ok [49; 50; 52; 32]);
    ([48; 48; 33; 122; 33], Ok [48; 48; 33; 122; 33]);
    ([123; 109; 101; 115; 115; 97; 103; 101; 123; 112; 97; 116; 104; 123; 109; 101; 115; 115; 97; 103; 101; 125; 123; 123; 123; 114; 117; 108; 101; 95; 110; 97; 109; 101], Err ValueError);
    ([123; 114; 117; 108; 101; 95; 110; 97; 109; 101; 123; 109; 101; 115; 115; 97; 103; 101; 125; 33; 115; 123; 109; 101; 115; 115; 97; 103; 101; 125; 125; 125; 32], Err ValueError);
    ([123; 109; 101; 115; 115; 97; 103; 101], Err ValueError);
    ([123; 77; 101; 115; 115; 97; 103; 101; 125; 123; 112; 97; 116; 104; 33; 122; 125; 123; 125], Err KeyError);
    ([125; 125; 91; 123; 109; 101; 115; 115; 97; 103; 101; 33; 115; 32; 125; 123; 112; 97; 116; 104], Err ValueError);
    ([123; 115; 116; 97; 114; 116; 95; 99; 111; 108; 33; 115; 32; 125], Err ValueError);
    ([125; 125; 97; 91; 32], Ok [125; 97; 91; 32]);
    ([123; 114; 117; 108; 101; 95; 110; 97; 109; 101; 125; 123; 115; 116; 97; 114; 116; 95; 108; 105; 110; 101; 125; 123; 115; 116; 97; 114; 116; 95; 99; 111; 108; 125; 125; 123; 109; 101; 115; 115; 97; 103; 101; 125; 33; 115], Err ValueError);
    ([123; 115; 116; 97; 114; 116; 95; 99; 111; 108; 33; 115; 125; 123; 48; 125], Err IndexError);
    ([115; 91], Ok [115; 91]);
    ([123; 55; 97; 125], Err KeyError);
    ([33; 115; 93; 48; 115; 125; 33], Err ValueError);
    ([91; 93], Ok [91; 93]);
    ([123; 114; 117; 108; 101; 95; 110; 97; 109; 101; 33; 115; 125; 125; 123; 114; 117; 108; 101; 95; 110; 97; 109; 101; 123; 115; 116; 97; 114; 116; 95; 99; 111; 108], Err ValueError);
    ([123; 115; 116; 97; 114; 116; 95; 108; 105; 110; 101; 125; 123; 115; 116; 97; 114; 116; 95; 99; 111; 108; 33; 115; 58; 125; 125; 125; 115], Ok [49; 50; 52; 125; 115]);
    ([123; 110; 111; 112; 101; 125], Err KeyError);
    ([115; 123; 114; 117; 108; 101; 95; 110; 97; 109; 101; 125], Ok [115; 83; 111; 109; 101]);
    ([123; 115; 116; 97; 114; 116; 95; 99; 111; 108; 33; 115; 58; 125; 123; 115; 116; 97; 114; 116; 95; 108; 105; 110; 101; 125; 123; 112; 97; 116; 104; 58; 125; 123; 115; 116; 97; 114; 116; 95; 108; 105; 110; 101; 125; 123; 115; 116; 97; 114; 116; 95; 108; 105; 110; 101; 125; 33], Ok [52; 49; 50; 97; 47; 98; 46; 112; 121; 49; 50; 49; 50; 33]);
    ([123; 115; 116; 97; 114; 116; 95; 99; 111; 108; 125; 123; 115; 116; 97; 114; 116; 95; 99; 111; 108; 125; 33; 115; 125], Err ValueError);
    ([123; 115; 116; 97; 114; 116; 95; 99; 111; 108; 125; 123; 115; 116; 97; 114; 116; 95; 99; 111; 108; 123; 114; 117; 108; 101; 95; 110; 97; 109; 101; 123; 109; 101; 115; 115; 97; 103; 101; 58; 125; 123; 115; 116; 97; 114; 116; 95; 108; 105; 110; 101; 125], Err ValueError);
    ([123; 114; 117; 108; 101; 95; 110; 97; 109; 101; 125; 115; 123; 123; 123; 115; 116; 97; 114; 116; 95; 108; 105; 110; 101; 33; 125; 123; 114; 117; 108; 101; 95; 110; 97; 109; 101; 125; 123; 115; 116; 97; 114; 116; 95; 99; 111; 108; 33; 115; 125], Err ValueError);
    ([97; 125; 125; 123; 109; 101; 115; 115; 97; 103; 101; 125], Ok [97; 125; 85; 115; 101; 32; 123; 120; 125; 32; 40; 104; 97; 115; 32; 97; 117; 116; 111; 102; 105; 120; 41]);
    ([123; 77; 101; 115; 115; 97; 103; 101; 125], Err KeyError);
    ([123; 114; 117; 108; 101; 95; 110; 97; 109; 101; 125; 58; 32], Ok [83; 111; 109; 101; 58; 32]);
    ([46; 123; 115; 116; 97; 114; 116; 95; 99; 111; 108; 125], Ok [46; 52]);
    ([123; 115; 116; 97; 114; 116; 95; 108; 105; 110; 101; 125; 125; 125; 123; 115; 116; 97; 114; 116; 95; 108; 105; 110; 101; 123; 123; 32], Err ValueError);
    ([32; 123; 112; 97; 116; 104; 33; 125; 123; 123], Err ValueError);
    ([123; 114; 117; 108; 101; 95; 110; 97; 109; 101; 33; 115; 125; 58; 125; 125; 123; 110; 111; 112; 101; 125], Err KeyError);
    ([123; 110; 111; 112; 101; 125; 46], Err KeyError);
    ([123; 123; 109; 101; 115; 115; 97; 103; 101; 125; 123; 115; 116; 97; 114; 116; 95; 99; 111; 108; 97; 123; 109; 101; 115; 115; 97; 103; 101; 33; 122; 125], Err ValueError);
    ([123; 109; 101; 115; 115; 97; 103; 101; 46], Err ValueError);
    ([123; 115; 116; 97; 114; 116; 95; 99; 111; 108; 125; 125; 125; 123; 114; 117; 108; 101; 95; 110; 97; 109; 101; 123; 109; 101; 115; 115; 97; 103; 101; 125; 123; 114; 117; 108; 101; 95; 110; 97; 109; 101; 125; 123; 109; 101; 115; 115; 97; 103; 101; 125], Err ValueError);
    ([123; 109; 101; 115; 115; 97; 103; 101; 125; 123; 109; 101; 115; 115; 97; 103; 101; 125], Ok [85; 115; 101; 32; 123; 120; 125; 32; 40; 104; 97; 115; 32; 97; 117; 116; 111; 102; 105; 120; 41; 85; 115; 101; 32; 123; 120; 125; 32; 40; 104; 97; 115; 32; 97; 117; 116; 111; 102; 105; 120; 41]);
    ([125; 125; 123; 115; 116; 97; 114; 116; 95; 108; 105; 110; 101; 125; 33; 115; 33; 122], Ok [125; 49; 50; 33; 115; 33; 122]);
    ([123; 115; 116; 97; 114; 116; 95; 99; 111; 108; 33; 115; 58; 125; 123; 115; 116; 97; 114; 116; 95; 99; 111; 108], Err ValueError);
    ([123; 115; 116; 97; 114; 116; 95; 108; 105; 110; 101; 48; 125; 125; 123; 114; 117; 108; 101; 95; 110; 97; 109; 101; 125], Err KeyError);
    ([123; 109; 101; 115; 115; 97; 103; 101; 33; 125; 123; 77; 101; 115; 115; 97; 103; 101; 125; 123; 115; 116; 97; 114; 116; 95; 108; 105; 110; 101; 125], Err ValueError);
    ([123; 48; 125; 33; 115; 123; 115; 116; 97; 114; 116; 95; 108; 105; 110; 101; 125; 123; 115; 116; 97; 114; 116; 95; 108; 105; 110; 101; 32; 125; 125], Err IndexError);
    ([123; 115; 116; 97; 114; 116; 95; 108; 105; 110; 101; 123; 109; 101; 115; 115; 97; 103; 101; 33; 122], Err ValueError);
    ([125; 123; 109; 101; 115; 115; 97; 103; 101; 123; 112; 97; 116; 104; 125], Err ValueError);
    ([48; 123; 115; 116; 97; 114; 116; 95; 108; 105; 110; 101; 125; 32; 123; 115; 116; 97; 114; 116; 95; 108; 105; 110; 101; 33; 125], Err ValueError);
    ([123; 112; 97; 116; 104], Err ValueError);
    ([123; 55; 97; 125; 48; 123; 115; 116; 97; 114; 116; 95; 108; 105; 110; 101; 125; 91; 123; 112; 97; 116; 104; 125; 32], Err KeyError);
    ([33; 122; 123; 112; 97; 116; 104], Err ValueError);
    ([123; 112; 97; 116; 104; 125; 123; 123; 112; 97; 116; 104; 125], Err ValueError);
    ([58; 32; 123; 123; 123; 109; 101; 115; 115; 97; 103; 101; 125; 32; 97], Ok [58; 32; 123; 85; 115; 101; 32; 123; 120; 125; 32; 40; 104; 97; 115; 32; 97; 117; 116; 111; 102; 105; 120; 41; 32; 97]);
    ([123; 114; 117; 108; 101; 95; 110; 97; 109; 101; 125; 123; 112; 97; 116; 104; 33; 122; 125; 123; 110; 111; 112; 101; 125; 123; 114; 117; 108; 101; 95; 110; 97; 109; 101; 125; 123; 112; 97; 116; 104; 125], Err ValueError);
    ([123; 114; 117; 108; 101; 95; 110; 97; 109; 101; 125; 123; 112; 97; 116; 104; 125; 123; 109; 101; 115; 115; 97; 103; 101; 33; 115; 32; 125; 93; 32; 33; 115], Err ValueError);
    ([123; 115; 116; 97; 114; 116; 95; 108; 105; 110; 101; 33; 115; 58; 125; 123; 109; 101; 115; 115; 97; 103; 101; 125; 123; 115; 116; 97; 114; 116; 95; 108; 105; 110; 101; 33; 115; 58; 125; 123; 115; 116; 97; 114; 116; 95; 99; 111; 108; 123; 115; 116; 97; 114; 116; 95; 108; 105; 110; 101; 125], Err ValueError);
    ([123; 123; 123; 109; 101; 115; 115; 97; 103; 101; 125; 123; 77; 101; 115; 115; 97; 103; 101; 125; 33; 115; 123; 109; 101; 115; 115; 97; 103; 101; 125; 123; 109; 101; 115; 115; 97; 103; 101; 125], Err KeyError);
    ([123; 115; 116; 97; 114; 116; 95; 99; 111; 108; 125; 123; 115; 116; 97; 114; 116; 95; 99; 111; 108; 125], Ok [52; 52]);
    ([123; 112; 97; 116; 104; 33; 115; 58; 125; 123; 123; 109; 101; 115; 115; 97; 103; 101; 33; 115; 125; 123; 115; 116; 97; 114; 116; 95; 108; 105; 110; 101; 125; 123; 109; 101; 115; 115; 97; 103; 101; 125], Err ValueError);
    ([115; 123; 109; 101; 115; 115; 97; 103; 101; 125], Ok [115; 85; 115; 101; 32; 123; 120; 125; 32; 40; 104; 97; 115; 32; 97; 117; 116; 111; 102; 105; 120; 41]);
    ([91; 48], Ok [91; 48]);
    ([123; 115; 116; 97; 114; 116; 95; 99; 111; 108; 125; 123; 112; 97; 116; 104; 125; 123; 115; 116; 97; 114; 116; 95; 108; 105; 110; 101; 125], Ok [52; 97; 47; 98; 46; 112; 121; 49; 50]);
    ([123; 115; 116; 97; 114; 116; 95; 108; 105; 110; 101; 125; 115], Ok [49; 50; 115]);
    ([123; 115; 116; 97; 114; 116; 95; 108; 105; 110; 101; 58; 125; 123; 115; 116; 97; 114; 116; 95; 99; 111; 108; 33; 115; 58; 125], Ok [49; 50; 52]);
    ([32; 123; 115; 116; 97; 114; 116; 95; 108; 105; 110; 101; 125], Ok [32; 49; 50]);
    ([123; 114; 117; 108; 101; 95; 110; 97; 109; 101; 125; 123; 123; 123; 114; 117; 108; 101; 95; 110; 97; 109; 101; 125; 125], Err ValueError);
    ([123; 114; 117; 108; 101; 95; 110; 97; 109; 101; 125; 123; 112; 97; 116; 104; 125; 48; 123; 112; 97; 116; 104; 125; 97; 48], Ok [83; 111; 109; 101; 97; 47; 98; 46; 112; 121; 48; 97; 47; 98; 46; 112; 121; 97; 48]);
    ([123; 109; 101; 115; 115; 97; 103; 101; 125; 97; 91], Ok [85; 115; 101; 32; 123; 120; 125; 32; 40; 104; 97; 115; 32; 97; 117; 116; 111; 102; 105; 120; 41; 97; 91]);
    ([91; 91; 33; 97; 123; 48; 125], Err IndexError);
    ([123; 115; 116; 97; 114; 116; 95; 99; 111; 108; 125; 123; 110; 111; 112; 101; 125; 123; 109; 101; 115; 115; 97; 103; 101; 125; 123; 115; 116; 97; 114; 116; 95; 108; 105; 110; 101; 33; 115; 58; 125; 123; 115; 116; 97; 114; 116; 95; 108; 105; 110; 101; 125], Err KeyError);
    ([123; 115; 116; 97; 114; 116; 95; 99; 111; 108; 125; 97; 33; 123; 115; 116; 97; 114; 116; 95; 108; 105; 110; 101; 125], Ok [52; 97; 33; 49; 50]);
    ([33; 122; 125; 125; 123; 115; 116; 97; 114; 116; 95; 108; 105; 110; 101; 33; 115; 58; 125; 125; 123; 109; 101; 115; 115; 97; 103; 101; 125; 93], Err ValueError);
    ([123; 77; 101; 115; 115; 97; 103; 101; 125; 125; 123; 112; 97; 116; 104; 33; 122; 125], Err KeyError);
    ([97; 123; 55; 97; 125], Err KeyError);
    ([123; 115; 116; 97; 114; 116; 95; 99; 111; 108; 125; 123; 115; 116; 97; 114; 116; 95; 99; 111; 108; 125; 123; 115; 116; 97; 114; 116; 95; 108; 105; 110; 101], Err ValueError);
    ([93; 125; 125], Ok [93; 125]);
    ([123; 123; 115], Ok [123; 115]);
    ([33; 122; 91; 58; 123], Err ValueError);
    ([123; 109; 101; 115; 115; 97; 103; 101; 125; 123; 114; 117; 108; 101; 95; 110; 97; 109; 101; 125; 33; 122], Ok [85; 115; 101; 32; 123; 120; 125; 32; 40; 104; 97; 115; 32; 97; 117; 116; 111; 102; 105; 120; 41; 83; 111; 109; 101; 33; 122]);
    ([58; 123; 123; 123; 110; 111; 112; 101; 125], Err KeyError);
    ([123; 112; 97; 116; 104; 123; 114; 117; 108; 101; 95; 110; 97; 109; 101; 125], Err ValueError);
    ([123; 114; 117; 108; 101; 95; 110; 97; 109; 101; 33; 122; 125], Err ValueError);
    ([125; 125; 93; 123; 114; 117; 108; 101; 95; 110; 97; 109; 101; 123; 114; 117; 108; 101; 95; 110; 97; 109; 101; 125; 33; 115], Err ValueError);
    ([123; 115; 116; 97; 114; 116; 95; 99; 111; 108; 125; 33; 115], Ok [52; 33; 115]);
    ([123; 123; 123; 109; 101; 115; 115; 97; 103; 101; 123; 114; 117; 108; 101; 95; 110; 97; 109; 101; 93; 123; 114; 117; 108; 101; 95; 110; 97; 109; 101; 125], Err ValueError);
    ([115; 93; 123; 55; 97; 125; 97], Err KeyError);
    ([123; 109; 101; 115; 115; 97; 103; 101; 125; 123; 115; 116; 97; 114; 116; 95; 99; 111; 108; 125; 123; 112; 97; 116; 104], Err ValueError);
    ([123; 115; 116; 97; 114; 116; 95; 99; 111; 108; 125; 123; 112; 97; 116; 104; 125; 33; 115; 33], Ok [52; 97; 47; 98; 46; 112; 121; 33; 115; 33]);
    ([123; 112; 97; 116; 104; 33; 115; 32; 125; 123; 112; 97; 116; 104; 125; 123; 125], Err ValueError);
    ([123; 109; 101; 115; 115; 97; 103; 101; 125; 123; 112; 97; 116; 104], Err ValueError);
    ([123; 112; 97; 116; 104; 125; 123], Err ValueError);
    ([58; 115; 125], Err ValueError);
    ([123; 114; 117; 108; 101; 95; 110; 97; 109; 101; 125; 123; 125; 32; 33; 115; 123; 48; 125], Err IndexError);
    ([123; 109; 101; 115; 115; 97; 103; 101; 125; 123; 112; 97; 116; 104; 33; 122; 125; 58; 123; 115; 116; 97; 114; 116; 95; 99; 111; 108; 125], Err ValueError);
    ([33; 122; 97], Ok [33; 122; 97]);
    ([123; 115; 116; 97; 114; 116; 95; 108; 105; 110; 101; 125; 123; 112; 97; 116; 104; 123; 114; 117; 108; 101; 95; 110; 97; 109; 101], Err ValueError);
    ([123; 115; 116; 97; 114; 116; 95; 99; 111; 108; 125; 32], Ok [52; 32]);
    ([123; 109; 101; 115; 115; 97; 103; 101; 125; 123; 109; 101; 115; 115; 97; 103; 101; 125; 123; 112; 97; 116; 104; 125; 33; 115; 33; 115; 123; 114; 117; 108; 101; 95; 110; 97; 109; 101; 58; 125], Ok [85; 115; 101; 32; 123; 120; 125; 32; 40; 104; 97; 115; 32; 97; 117; 116; 111; 102; 105; 120; 41; 85; 115; 101; 32; 123; 120; 125; 32; 40; 104; 97; 115; 32; 97; 117; 116; 111; 102; 105; 120; 41; 97; 47; 98; 46; 112; 121; 33; 115; 33; 115; 83; 111; 109; 101]);
    ([123; 115; 116; 97; 114; 116; 95; 108; 105; 110; 101; 125; 123; 123], Ok [49; 50; 123]);
    ([48; 48; 115; 123; 114; 117; 108; 101; 95; 110; 97; 109; 101; 33; 122; 125; 125], Err ValueError);
    ([123; 115; 116; 97; 114; 116; 95; 99; 111; 108; 125; 123; 114; 117; 108; 101; 95; 110; 97; 109; 101; 33; 115; 32; 125; 97; 123; 109; 101; 115; 115; 97; 103; 101; 125; 123; 114; 117; 108; 101; 95; 110; 97; 109; 101; 125; 123; 112; 97; 116; 104], Err ValueError);
    ([123; 109; 101; 115; 115; 97; 103; 101; 93; 123; 109; 101; 115; 115; 97; 103; 101], Err ValueError);
    ([123; 115; 116; 97; 114; 116; 95; 99; 111; 108; 125; 123; 109; 101; 115; 115; 97; 103; 101; 125; 123; 115; 116; 97; 114; 116; 95; 99; 111; 108; 33; 115; 125; 32; 123; 114; 117; 108; 101; 95; 110; 97; 109; 101; 33; 115; 58; 125], Ok [52; 85; 115; 101; 32; 123; 120; 125; 32; 40; 104; 97; 115; 32; 97; 117; 116; 111; 102; 105; 120; 41; 52; 32; 83; 111; 109; 101]);
    ([123; 125; 48; 33; 115; 123; 109; 101; 115; 115; 97; 103; 101; 125; 123; 109; 101; 115; 115; 97; 103; 101; 33; 115; 32; 125; 123], Err IndexError);
    ([123; 77; 101; 115; 115; 97; 103; 101; 125; 123; 48; 125], Err KeyError);
    ([123; 112; 97; 116; 104; 125; 123; 115; 116; 97; 114; 116; 95; 108; 105; 110; 101; 58; 125; 123; 109; 101; 115; 115; 97; 103; 101; 125], Ok [97; 47; 98; 46; 112; 121; 49; 50; 85; 115; 101; 32; 123; 120; 125; 32; 40; 104; 97; 115; 32; 97; 117; 116; 111; 102; 105; 120; 41]);
    ([123; 109; 101; 115; 115; 97; 103; 101; 123; 112; 97; 116; 104], Err ValueError);
    ([33; 91; 123; 114; 117; 108; 101; 95; 110; 97; 109; 101; 125; 48], Ok [33; 91; 83; 111; 109; 101; 48]);
    ([33; 115; 123; 114; 117; 108; 101; 95; 110; 97; 109; 101; 125; 123; 123; 123; 115; 116; 97; 114; 116; 95; 99; 111; 108], Err ValueError);
    ([32; 91; 48; 125; 46], Err ValueError);
    ([123; 112; 97; 116; 104; 125; 123; 77; 101; 115; 115; 97; 103; 101; 125; 123; 115; 116; 97; 114; 116; 95; 108; 105; 110; 101], Err KeyError);
    ([123; 114; 117; 108; 101; 95; 110; 97; 109; 101; 125; 123; 123; 55; 97; 125], Err ValueError);
    ([123; 114; 117; 108; 101; 95; 110; 97; 109; 101; 125; 123; 112; 97; 116; 104; 123; 109; 101; 115; 115; 97; 103; 101; 33; 115; 58; 125; 123; 115; 116; 97; 114; 116; 95; 99; 111; 108; 125; 123; 112; 97; 116; 104; 125; 123; 115; 116; 97; 114; 116; 95; 108; 105; 110; 101], Err ValueError);
    ([123; 115; 116; 97; 114; 116; 95; 99; 111; 108; 123; 112; 97; 116; 104; 125; 115; 33; 115; 33; 115], Err ValueError);
    ([97; 32], Ok [97; 32]);
    ([123; 109; 101; 115; 115; 97; 103; 101; 125; 123; 115; 116; 97; 114; 116; 95; 99; 111; 108; 33; 115; 125; 125; 33; 115; 32], Err ValueError);
    ([123; 114; 117; 108; 101; 95; 110; 97; 109; 101; 125; 46; 123; 114; 117; 108; 101; 95; 110; 97; 109; 101], Err ValueError);
    ([123; 123; 48; 125; 33; 122; 46], Err ValueError);
    ([46; 123; 109; 101; 115; 115; 97; 103; 101; 125; 123; 115; 116; 97; 114; 116; 95; 108; 105; 110; 101], Err ValueError);
    ([33; 122; 123; 115; 116; 97; 114; 116; 95; 99; 111; 108; 125; 125; 125], Ok [33; 122; 52; 125]);
    ([123; 114; 117; 108; 101; 95; 110; 97; 109; 101; 125; 123; 109; 101; 115; 115; 97; 103; 101; 125; 123; 112; 97; 116; 104; 125], Ok [83; 111; 109; 101; 85; 115; 101; 32; 123; 120; 125; 32; 40; 104; 97; 115; 32; 97; 117; 116; 111; 102; 105; 120; 41; 97; 47; 98; 46; 112; 121]);
    ([123; 115; 116; 97; 114; 116; 95; 108; 105; 110; 101], Err ValueError);
    ([123; 112; 97; 116; 104; 125; 123; 109; 101; 115; 115; 97; 103; 101; 125; 123; 112; 97; 116; 104; 33; 115; 125; 48], Ok [97; 47; 98; 46; 112; 121; 85; 115; 101; 32; 123; 120; 125; 32; 40; 104; 97; 115; 32; 97; 117; 116; 111; 102; 105; 120; 41; 97; 47; 98; 46; 112; 121; 48]);
    ([123; 110; 111; 112; 101; 125; 33; 123; 115; 116; 97; 114; 116; 95; 99; 111; 108; 125], Err KeyError);
    ([123; 109; 101; 115; 115; 97; 103; 101; 125; 33; 125], Err ValueError);
    ([33; 122; 123; 123; 58], Ok [33; 122; 123; 58]);
    ([125; 125; 123; 114; 117; 108; 101; 95; 110; 97; 109; 101; 125], Ok [125; 83; 111; 109; 101]);
    ([123; 115; 116; 97; 114; 116; 95; 108; 105; 110; 101; 125; 125; 125; 123; 115; 116; 97; 114; 116; 95; 99; 111; 108; 125; 33; 122], Ok [49; 50; 125; 52; 33; 122]);
    ([115; 91; 115], Ok [115; 91; 115]);
    ([123; 112; 97; 116; 104; 125; 123; 110; 111; 112; 101; 125; 123; 114; 117; 108; 101; 95; 110; 97; 109; 101; 125; 123; 115; 116; 97; 114; 116; 95; 99; 111; 108; 33; 122], Err KeyError);
    ([123; 115; 116; 97; 114; 116; 95; 99; 111; 108; 33; 115; 32; 125; 123; 115; 116; 97; 114; 116; 95; 108; 105; 110; 101; 125; 123; 55; 97; 125], Err ValueError);
    ([123; 109; 101; 115; 115; 97; 103; 101; 125; 91], Ok [85; 115; 101; 32; 123; 120; 125; 32; 40; 104; 97; 115; 32; 97; 117; 116; 111; 102; 105; 120; 41; 91]);
    ([123; 115; 116; 97; 114; 116; 95; 108; 105; 110; 101; 125; 123; 109; 101; 115; 115; 97; 103; 101; 123; 115; 116; 97; 114; 116; 95; 99; 111; 108; 33; 125], Err ValueError);
    ([123; 48; 125; 123; 114; 117; 108; 101; 95; 110; 97; 109; 101; 33; 125; 123; 112; 97; 116; 104; 33; 115; 32; 125; 123; 115; 116; 97; 114; 116; 95; 108; 105; 110; 101; 125; 97; 123; 109; 101; 115; 115; 97; 103; 101], Err IndexError);
    ([123; 115; 116; 97; 114; 116; 95; 108; 105; 110; 101; 123; 123; 112; 97; 116; 104; 123; 115; 116; 97; 114; 116; 95; 108; 105; 110; 101; 33; 115; 125; 33], Err ValueError);
    ([48; 123; 48; 125], Err IndexError);
    ([123; 112; 97; 116; 104; 125; 115; 48; 125], Err ValueError);
    ([46; 91; 33; 122; 123; 115; 116; 97; 114; 116; 95; 99; 111; 108; 125], Ok [46; 91; 33; 122; 52]);
    ([123; 112; 97; 116; 104; 125; 123; 115; 116; 97; 114; 116; 95; 99; 111; 108; 125; 125; 123; 123], Err ValueError);
    ([123; 115; 116; 97; 114; 116; 95; 108; 105; 110; 101; 123; 114; 117; 108; 101; 95; 110; 97; 109; 101; 125; 123; 115; 116; 97; 114; 116; 95; 108; 105; 110; 101; 33; 122; 125], Err ValueError);
    ([123; 115; 116; 97; 114; 116; 95; 108; 105; 110; 101; 33; 115; 58; 125; 32; 97; 125; 125; 125; 125], Ok [49; 50; 32; 97; 125; 125]);
    ([33; 115; 58; 33; 123; 109; 101; 115; 115; 97; 103; 101; 125], Ok [33; 115; 58; 33; 85; 115; 101; 32; 123; 120; 125; 32; 40; 104; 97; 115; 32; 97; 117; 116; 111; 102; 105; 120; 41]);
    ([123; 112; 97; 116; 104; 125; 97], Ok [97; 47; 98; 46; 112; 121; 97]);
    ([123; 109; 101; 115; 115; 97; 103; 101; 125; 33], Ok [85; 115; 101; 32; 123; 120; 125; 32; 40; 104; 97; 115; 32; 97; 117; 116; 111; 102; 105; 120; 41; 33]);
    ([123; 114; 117; 108; 101; 95; 110; 97; 109; 101; 125; 46; 123; 112; 97; 116; 104; 48; 48], Err ValueError);
    ([91; 58; 123; 123], Ok [91; 58; 123]);
    ([123; 112; 97; 116; 104; 125; 123; 109; 101; 115; 115; 97; 103; 101; 125], Ok [97; 47; 98; 46; 112; 121; 85; 115; 101; 32; 123; 120; 125; 32; 40; 104; 97; 115; 32; 97; 117; 116; 111; 102; 105; 120; 41]);
    ([97; 123; 109; 101; 115; 115; 97; 103; 101; 125; 32; 97], Ok [97; 85; 115; 101; 32; 123; 120; 125; 32; 40; 104; 97; 115; 32; 97; 117; 116; 111; 102; 105; 120; 41; 32; 97]);
    ([33; 115; 123; 115; 116; 97; 114; 116; 95; 108; 105; 110; 101; 125; 33; 115; 125; 125; 46], Ok [33; 115; 49; 50; 33; 115; 125; 46]);
    ([123; 109; 101; 115; 115; 97; 103; 101; 33; 122; 125; 48; 123; 112; 97; 116; 104; 33; 115; 125; 123; 77; 101; 115; 115; 97; 103; 101; 125], Err ValueError);
    ([123; 109; 101; 115; 115; 97; 103; 101; 125; 32; 123; 112; 97; 116; 104; 125; 123; 115; 116; 97; 114; 116; 95; 99; 111; 108; 125; 91; 93], Ok [85; 115; 101; 32; 123; 120; 125; 32; 40; 104; 97; 115; 32; 97; 117; 116; 111; 102; 105; 120; 41; 32; 97; 47; 98; 46; 112; 121; 52; 91; 93]);
    ([123; 114; 117; 108; 101; 95; 110; 97; 109; 101; 125; 58; 123; 109; 101; 115; 115; 97; 103; 101; 125; 123; 109; 101; 115; 115; 97; 103; 101; 125; 33; 122], Ok [83; 111; 109; 101; 58; 85; 115; 101; 32; 123; 120; 125; 32; 40; 104; 97; 115; 32; 97; 117; 116; 111; 102; 105; 120; 41; 85; 115; 101; 32; 123; 120; 125; 32; 40; 104; 97; 115; 32; 97; 117; 116; 111; 102; 105; 120; 41; 33; 122]);
    ([32; 33; 115; 123; 110; 111; 112; 101; 125; 91], Err KeyError);
    ([123; 115; 116; 97; 114; 116; 95; 108; 105; 110; 101; 125; 123; 109; 101; 115; 115; 97; 103; 101; 58; 125; 58; 33; 115; 123; 109; 101; 115; 115; 97; 103; 101; 125; 125], Err ValueError);
    ([93; 123; 109; 101; 115; 115; 97; 103; 101; 33; 125; 123; 114; 117; 108; 101; 95; 110; 97; 109; 101; 125; 123; 115; 116; 97; 114; 116; 95; 108; 105; 110; 101; 125], Err ValueError);
    ([123; 109; 101; 115; 115; 97; 103; 101; 125; 125; 123; 115; 116; 97; 114; 116; 95; 99; 111; 108; 125], Err ValueError);
    ([123; 114; 117; 108; 101; 95; 110; 97; 109; 101; 58; 93; 123; 115; 116; 97; 114; 116; 95; 108; 105; 110; 101; 125; 123; 114; 117; 108; 101; 95; 110; 97; 109; 101; 125], Err ValueError);
    ([123; 115; 116; 97; 114; 116; 95; 99; 111; 108; 125; 91; 123; 115; 116; 97; 114; 116; 95; 108; 105; 110; 101; 125; 123; 115; 116; 97; 114; 116; 95; 99; 111; 108; 33; 115; 58; 125; 97; 48], Ok [52; 91; 49; 50; 52; 97; 48]);
    ([123; 123; 46; 123; 114; 117; 108; 101; 95; 110; 97; 109; 101; 33; 115; 125; 123; 109; 101; 115; 115; 97; 103; 101; 125; 33; 122; 123; 123], Ok [123; 46; 83; 111; 109; 101; 85; 115; 101; 32; 123; 120; 125; 32; 40; 104; 97; 115; 32; 97; 117; 116; 111; 102; 105; 120; 41; 33; 122; 123]);
    ([123; 115; 116; 97; 114; 116; 95; 99; 111; 108; 125; 123; 123; 123; 114; 117; 108; 101; 95; 110; 97; 109; 101; 33; 125; 123; 115], Err ValueError);
    ([123; 112; 97; 116; 104; 125; 123; 115; 116; 97; 114; 116; 95; 108; 105; 110; 101; 125; 123; 115; 116; 97; 114; 116; 95; 108; 105; 110; 101; 33; 115; 125], Ok [97; 47; 98; 46; 112; 121; 49; 50; 49; 50]);
    ([33; 58; 123; 115; 116; 97; 114; 116; 95; 108; 105; 110; 101; 125; 33; 115; 123; 112; 97; 116; 104; 125; 123; 115; 116; 97; 114; 116; 95; 108; 105; 110; 101; 125], Ok [33; 58; 49; 50; 33; 115; 97; 47; 98; 46; 112; 121; 49; 50]);
    ([123; 112; 97; 116; 104; 125; 123; 115; 116; 97; 114; 116; 95; 99; 111; 108; 125; 33; 115; 123; 114; 117; 108; 101; 95; 110; 97; 109; 101; 125; 123; 115; 116; 97; 114; 116; 95; 108; 105; 110; 101; 125], Ok [97; 47; 98; 46; 112; 121; 52; 33; 115; 83; 111; 109; 101; 49; 50]);
    ([123; 115; 116; 97; 114; 116; 95; 108; 105; 110; 101; 33; 115; 125; 123; 115; 116; 97; 114; 116; 95; 108; 105; 110; 101; 33; 115; 58; 125; 46; 58; 123; 115; 116; 97; 114; 116; 95; 99; 111; 108; 125; 123; 112; 97; 116; 104; 58; 125], Ok [49; 50; 49; 50; 46; 58; 52; 97; 47; 98; 46; 112; 121]);
    ([123; 55; 97; 125; 123; 109; 101; 115; 115; 97; 103; 101; 125; 58; 33; 123; 109; 101; 115; 115; 97; 103; 101; 125], Err KeyError);
    ([123; 109; 101; 115; 115; 97; 103; 101; 125; 123; 115; 116; 97; 114; 116; 95; 108; 105; 110; 101; 125], Ok [85; 115; 101; 32; 123; 120; 125; 32; 40; 104; 97; 115; 32; 97; 117; 116; 111; 102; 105; 120; 41; 49; 50]);
    ([123; 115; 116; 97; 114; 116; 95; 108; 105; 110; 101; 33; 115; 58; 125; 123; 112; 97; 116; 104; 125; 123; 109; 101; 115; 115; 97; 103; 101; 123; 48; 125], Err ValueError);
    ([33; 122; 123; 112; 97; 116; 104; 125; 123; 112; 97; 116; 104; 125; 123; 112; 97; 116; 104; 125; 123; 115; 116; 97; 114; 116; 95; 99; 111; 108], Err ValueError);
    ([123; 114; 117; 108; 101; 95; 110; 97; 109; 101; 125; 125; 125; 123; 114; 117; 108; 101; 95; 110; 97; 109; 101; 125; 123], Err ValueError);
    ([97; 123; 112; 97; 116; 104; 33; 122; 125; 123; 112; 97; 116; 104; 125], Err ValueError);
    ([123; 114; 117; 108; 101; 95; 110; 97; 109; 101; 58; 125], Ok [83; 111; 109; 101]);
    ([123; 114; 117; 108; 101; 95; 110; 97; 109; 101; 33; 122; 125; 125; 125], Err ValueError);
    ([123; 114; 117; 108; 101; 95; 110; 97; 109; 101; 58; 125; 123; 115; 116; 97; 114; 116; 95; 99; 111; 108; 123; 115; 116; 97; 114; 116; 95; 99; 111; 108; 46; 123; 125], Err ValueError);
    ([123; 109; 101; 115; 115; 97; 103; 101; 123; 114; 117; 108; 101; 95; 110; 97; 109; 101], Err ValueError);
    ([33; 122; 123; 115; 116; 97; 114; 116; 95; 99; 111; 108; 125; 115; 125; 125], Ok [33; 122; 52; 115; 125]);
    ([123; 109; 101; 115; 115; 97; 103; 101; 33; 115; 125; 123; 109; 101; 115; 115; 97; 103; 101; 125; 123; 115; 116; 97; 114; 116; 95; 108; 105; 110; 101; 123; 114; 117; 108; 101; 95; 110; 97; 109; 101; 125], Err ValueError);
    ([123; 115; 116; 97; 114; 116; 95; 99; 111; 108; 125; 123; 112; 97; 116; 104; 48; 32], Err ValueError);
    ([123; 112; 97; 116; 104; 125; 123; 115; 116; 97; 114; 116; 95; 99; 111; 108; 125], Ok [97; 47; 98; 46; 112; 121; 52]);
    ([123; 112; 97; 116; 104; 33; 115; 58; 125; 123; 114; 117; 108; 101; 95; 110; 97; 109; 101; 125; 32; 32], Ok [97; 47; 98; 46; 112; 121; 83; 111; 109; 101; 32; 32]);
    ([123; 115; 116; 97; 114; 116; 95; 108; 105; 110; 101; 125; 123; 115; 116; 97; 114; 116; 95; 108; 105; 110; 101; 125; 123; 112; 97; 116; 104], Err ValueError);
    ([123; 109; 101; 115; 115; 97; 103; 101; 123; 109; 101; 115; 115; 97; 103; 101; 33; 122; 125; 123; 125; 97; 123; 115; 116; 97; 114; 116; 95; 108; 105; 110; 101; 33; 122; 125], Err ValueError);
    ([97; 123; 115; 116; 97; 114; 116; 95; 99; 111; 108; 125; 123; 123; 123; 109; 101; 115; 115; 97; 103; 101; 125; 125], Err ValueError);
    ([123; 109; 101; 115; 115; 97; 103; 101; 125; 97], Ok [85; 115; 101; 32; 123; 120; 125; 32; 40; 104; 97; 115; 32; 97; 117; 116; 111; 102; 105; 120; 41; 97]);
    ([123; 112; 97; 116; 104; 32; 91; 91], Err ValueError);
    ([123; 109; 101; 115; 115; 97; 103; 101; 123; 115; 116; 97; 114; 116; 95; 99; 111; 108; 125; 123; 112; 97; 116; 104; 125; 123; 114; 117; 108; 101; 95; 110; 97; 109; 101; 123; 112; 97; 116; 104; 125; 123; 115; 116; 97; 114; 116; 95; 99; 111; 108], Err ValueError);
    ([123; 112; 97; 116; 104; 125; 123; 115; 116; 97; 114; 116; 95; 99; 111; 108; 125; 123; 115; 116; 97; 114; 116; 95; 99; 111; 108; 125; 123; 109; 101; 115; 115; 97; 103; 101; 125; 123; 114; 117; 108; 101; 95; 110; 97; 109; 101; 33; 115; 125], Ok [97; 47; 98; 46; 112; 121; 52; 52; 85; 115; 101; 32; 123; 120; 125; 32; 40; 104; 97; 115; 32; 97; 117; 116; 111; 102; 105; 120; 41; 83; 111; 109; 101]);
    ([32; 33; 122], Ok [32; 33; 122]);
    ([33; 122; 123; 112; 97; 116; 104; 125; 123; 112; 97; 116; 104; 125], Ok [33; 122; 97; 47; 98; 46; 112; 121; 97; 47; 98; 46; 112; 121]);
    ([123; 115; 116; 97; 114; 116; 95; 108; 105; 110; 101; 125; 123; 114; 117; 108; 101; 95; 110; 97; 109; 101; 123; 123; 109; 101; 115; 115; 97; 103; 101; 125; 91], Err ValueError);
    ([123; 109; 101; 115; 115; 97; 103; 101; 125; 123; 112; 97; 116; 104; 125; 33; 115; 123; 114; 117; 108; 101; 95; 110; 97; 109; 101; 125; 123], Err ValueError);
    ([123; 123; 32; 123; 112; 97; 116; 104; 125; 123; 114; 117; 108; 101; 95; 110; 97; 109; 101; 123; 115; 116; 97; 114; 116; 95; 108; 105; 110; 101; 125; 123; 112; 97; 116; 104], Err ValueError);
    ([123; 112; 97; 116; 104; 33; 115; 32; 125; 93; 123; 114; 117; 108; 101; 95; 110; 97; 109; 101; 125; 123; 112; 97; 116; 104; 125; 33; 122; 123; 115; 116; 97; 114; 116; 95; 108; 105; 110; 101; 125], Err ValueError);
    ([123; 112; 97; 116; 104; 125; 123; 115; 116; 97; 114; 116; 95; 108; 105; 110; 101; 123; 114; 117; 108; 101; 95; 110; 97; 109; 101; 123; 115; 116; 97; 114; 116; 95; 99; 111; 108; 125; 123; 109; 101; 115; 115; 97; 103; 101; 125], Err ValueError);
    ([123; 115; 116; 97; 114; 116; 95; 99; 111; 108; 125; 123; 115; 116; 97; 114; 116; 95; 99; 111; 108; 123; 77; 101; 115; 115; 97; 103; 101; 125], Err ValueError);
    ([123; 123; 109; 101; 115; 115; 97; 103; 101; 125; 123; 112; 97; 116; 104; 125], Err ValueError);
    ([91; 48; 123; 77; 101; 115; 115; 97; 103; 101; 125; 123; 115; 116; 97; 114; 116; 95; 108; 105; 110; 101; 125; 123; 77; 101; 115; 115; 97; 103; 101; 125], Err KeyError);
    ([123; 112; 97; 116; 104; 125; 123; 114; 117; 108; 101; 95; 110; 97; 109; 101; 125; 33; 115; 46; 123; 114; 117; 108; 101; 95; 110; 97; 109; 101], Err ValueError);
    ([33; 115; 123; 114; 117; 108; 101; 95; 110; 97; 109; 101], Err ValueError);
    ([123; 115; 116; 97; 114; 116; 95; 99; 111; 108; 125; 123; 109; 101; 115; 115; 97; 103; 101; 125; 123; 115; 116; 97; 114; 116; 95; 108; 105; 110; 101; 125; 123; 115; 116; 97; 114; 116; 95; 99; 111; 108; 125; 33; 115], Ok [52; 85; 115; 101; 32; 123; 120; 125; 32; 40; 104; 97; 115; 32; 97; 117; 116; 111; 102; 105; 120; 41; 49; 50; 52; 33; 115]);
    ([93; 123; 115; 116; 97; 114; 116; 95; 108; 105; 110; 101; 123; 115; 116; 97; 114; 116; 95; 108; 105; 110; 101; 125; 115; 123; 55; 97; 125], Err ValueError);
    ([123; 115; 116; 97; 114; 116; 95; 108; 105; 110; 101; 125; 33; 123; 112; 97; 116; 104; 125; 123; 112; 97; 116; 104; 125; 123; 115; 116; 97; 114; 116; 95; 108; 105; 110; 101; 125; 123; 114; 117; 108; 101; 95; 110; 97; 109; 101; 125], Ok [49; 50; 33; 97; 47; 98; 46; 112; 121; 97; 47; 98; 46; 112; 121; 49; 50; 83; 111; 109; 101]);
    ([123; 115; 116; 97; 114; 116; 95; 99; 111; 108; 125; 97; 123; 115; 116; 97; 114; 116; 95; 99; 111; 108; 33; 115; 58; 125; 125], Err ValueError);
    ([123; 115; 116; 97; 114; 116; 95; 99; 111; 108; 123; 91; 123; 112; 97; 116; 104; 33; 125; 58], Err ValueError);
    ([123; 115; 116; 97; 114; 116; 95; 108; 105; 110; 101; 123; 112; 97; 116; 104; 125; 123; 48; 125; 123; 55; 97; 125; 123; 115; 116; 97; 114; 116; 95; 99; 111; 108; 125], Err ValueError);
    ([123; 115; 116; 97; 114; 116; 95; 108; 105; 110; 101; 33; 115; 58; 125; 123; 55; 97; 125], Err KeyError);
    ([48; 123; 115; 116; 97; 114; 116; 95; 108; 105; 110; 101; 125; 33; 122; 58; 123; 115; 116; 97; 114; 116; 95; 99; 111; 108; 125; 123; 48; 125], Err IndexError);
    ([33; 123; 115; 116; 97; 114; 116; 95; 99; 111; 108; 33; 122; 125; 123; 115; 116; 97; 114; 116; 95; 108; 105; 110; 101; 33; 115; 125; 123; 115; 116; 97; 114; 116; 95; 108; 105; 110; 101; 123; 112; 97; 116; 104; 33; 115; 125], Err ValueError);
    ([123; 114; 117; 108; 101; 95; 110; 97; 109; 101; 125; 123; 123; 114; 117; 108; 101; 95; 110; 97; 109; 101; 48; 123; 115; 116; 97; 114; 116; 95; 99; 111; 108; 125; 123; 115; 116; 97; 114; 116; 95; 99; 111; 108; 125], Ok [83; 111; 109; 101; 123; 114; 117; 108; 101; 95; 110; 97; 109; 101; 48; 52; 52]);
    ([123; 77; 101; 115; 115; 97; 103; 101; 125; 97; 123; 109; 101; 115; 115; 97; 103; 101; 125], Err KeyError);
    ([123; 115; 116; 97; 114; 116; 95; 99; 111; 108; 33; 115; 32; 125; 123; 115; 116; 97; 114; 116; 95; 99; 111; 108; 125; 123; 125; 123; 115; 116; 97; 114; 116; 95; 99; 111; 108; 125], Err ValueError);
    ([123; 109; 101; 115; 115; 97; 103; 101; 125; 123; 112; 97; 116; 104; 125; 123; 114; 117; 108; 101; 95; 110; 97; 109; 101; 125], Ok [85; 115; 101; 32; 123; 120; 125; 32; 40; 104; 97; 115; 32; 97; 117; 116; 111; 102; 105; 120; 41; 97; 47; 98; 46; 112; 121; 83; 111; 109; 101]);
    ([123; 109; 101; 115; 115; 97; 103; 101; 33; 115; 125; 123; 115; 116; 97; 114; 116; 95; 108; 105; 110; 101; 125; 123; 109; 101; 115; 115; 97; 103; 101; 125; 123; 115; 116; 97; 114; 116; 95; 99; 111; 108; 125; 123; 77; 101; 115; 115; 97; 103; 101; 125], Err KeyError);
    ([123; 109; 101; 115; 115; 97; 103; 101; 125; 125; 125; 123; 115; 116; 97; 114; 116; 95; 108; 105; 110; 101; 125; 123; 114; 117; 108; 101; 95; 110; 97; 109; 101; 125; 91], Ok [85; 115; 101; 32; 123; 120; 125; 32; 40; 104; 97; 115; 32; 97; 117; 116; 111; 102; 105; 120; 41; 125; 49; 50; 83; 111; 109; 101; 91]);
    ([123; 115; 116; 97; 114; 116; 95; 99; 111; 108; 125; 33; 122; 33; 115; 125; 125], Ok [52; 33; 122; 33; 115; 125]);
    ([115; 125; 125; 123; 109; 101; 115; 115; 97; 103; 101; 125; 125; 123; 112; 97; 116; 104; 33], Err ValueError);
    ([123; 114; 117; 108; 101; 95; 110; 97; 109; 101; 125; 123; 115; 116; 97; 114; 116; 95; 99; 111; 108; 33; 115; 58; 125; 33; 115], Ok [83; 111; 109; 101; 52; 33; 115]);
    ([123; 115; 116; 97; 114; 116; 95; 99; 111; 108; 125; 32; 123; 115; 116; 97; 114; 116; 95; 99; 111; 108; 125; 123; 115; 116; 97; 114; 116; 95; 108; 105; 110; 101; 125], Ok [52; 32; 52; 49; 50]);
    ([33; 115; 33; 123; 123; 115; 116; 97; 114; 116; 95; 108; 105; 110; 101; 125; 123; 115; 116; 97; 114; 116; 95; 108; 105; 110; 101], Err ValueError);
    ([123; 114; 117; 108; 101; 95; 110; 97; 109; 101; 123; 109; 101; 115; 115; 97; 103; 101; 123; 77; 101; 115; 115; 97; 103; 101; 125; 123; 114; 117; 108; 101; 95; 110; 97; 109; 101; 125], Err ValueError);
    ([33; 115; 123; 114; 117; 108; 101; 95; 110; 97; 109; 101; 125; 123; 109; 101; 115; 115; 97; 103; 101; 125; 123; 112; 97; 116; 104; 33; 115; 32; 125], Err ValueError);
    ([123; 109; 101; 115; 115; 97; 103; 101; 33; 115; 32; 125; 123; 125; 123; 115; 116; 97; 114; 116; 95; 99; 111; 108; 125], Err ValueError);
    ([125; 125; 123; 110; 111; 112; 101; 125; 91; 123; 115; 116; 97; 114; 116; 95; 108; 105; 110; 101; 125; 123; 109; 101; 115; 115; 97; 103; 101; 125], Err KeyError);
    ([123; 115; 116; 97; 114; 116; 95; 108; 105; 110; 101; 125; 123; 55; 97; 125], Err KeyError);
    ([91; 115; 123; 77; 101; 115; 115; 97; 103; 101; 125; 123; 112; 97; 116; 104; 58; 125; 48; 32], Err KeyError);
    ([123; 115; 116; 97; 114; 116; 95; 108; 105; 110; 101; 123; 114; 117; 108; 101; 95; 110; 97; 109; 101; 125; 123; 115; 116; 97; 114; 116; 95; 108; 105; 110; 101; 125; 123; 115; 116; 97; 114; 116; 95; 99; 111; 108; 125; 115], Err ValueError);
    ([123; 109; 101; 115; 115; 97; 103; 101; 125; 58], Ok [85; 115; 101; 32; 123; 120; 125; 32; 40; 104; 97; 115; 32; 97; 117; 116; 111; 102; 105; 120; 41; 58]);
    ([123; 115; 116; 97; 114; 116; 95; 99; 111; 108; 125; 123; 115; 116; 97; 114; 116; 95; 108; 105; 110; 101; 125; 48; 123; 115; 116; 97; 114; 116; 95; 108; 105; 110; 101; 125], Ok [52; 49; 50; 48; 49; 50]);
    ([123; 115; 116; 97; 114; 116; 95; 99; 111; 108; 123; 115; 116; 97; 114; 116; 95; 99; 111; 108; 33; 125; 58; 123; 114; 117; 108; 101; 95; 110; 97; 109; 101; 125; 123; 115; 116; 97; 114; 116; 95; 108; 105; 110; 101; 33; 125; 123; 114; 117; 108; 101; 95; 110; 97; 109; 101; 58; 125], Err ValueError);
    ([33; 122; 123; 123; 123; 109; 101; 115; 115; 97; 103; 101; 125], Ok [33; 122; 123; 85; 115; 101; 32; 123; 120; 125; 32; 40; 104; 97; 115; 32; 97; 117; 116; 111; 102; 105; 120; 41]);
    ([123; 109; 101; 115; 115; 97; 103; 101; 125; 123; 123; 123; 114; 117; 108; 101; 95; 110; 97; 109; 101; 125; 123; 115; 116; 97; 114; 116; 95; 108; 105; 110; 101; 125; 97; 32], Ok [85; 115; 101; 32; 123; 120; 125; 32; 40; 104; 97; 115; 32; 97; 117; 116; 111; 102; 105; 120; 41; 123; 83; 111; 109; 101; 49; 50; 97; 32]);
    ([48; 123; 115; 116; 97; 114; 116; 95; 99; 111; 108; 33; 115; 58; 125; 33; 32; 123; 114; 117; 108; 101; 95; 110; 97; 109; 101; 125], Ok [48; 52; 33; 32; 83; 111; 109; 101]);
    ([91; 123; 115; 116; 97; 114; 116; 95; 99; 111; 108; 33; 115; 32; 125; 123; 115; 116; 97; 114; 116; 95; 108; 105; 110; 101; 125; 123; 123; 123; 115; 116; 97; 114; 116; 95; 108; 105; 110; 101], Err ValueError);
    ([123; 48; 125; 123; 125; 33; 122; 97; 123; 114; 117; 108; 101; 95; 110; 97; 109; 101; 123; 115; 116; 97; 114; 116; 95; 99; 111; 108; 125], Err IndexError);
    ([123; 48; 125; 123; 115; 116; 97; 114; 116; 95; 99; 111; 108], Err IndexError);
    ([125; 125; 123; 109; 101; 115; 115; 97; 103; 101; 125], Ok [125; 85; 115; 101; 32; 123; 120; 125; 32; 40; 104; 97; 115; 32; 97; 117; 116; 111; 102; 105; 120; 41]);
    ([123; 115; 116; 97; 114; 116; 95; 99; 111; 108; 123; 123; 93; 123; 114; 117; 108; 101; 95; 110; 97; 109; 101; 125; 46; 123; 115; 116; 97; 114; 116; 95; 99; 111; 108; 125], Err ValueError);
    ([123; 109; 101; 115; 115; 97; 103; 101; 33; 115; 32; 125; 123; 114; 117; 108; 101; 95; 110; 97; 109; 101; 125; 123; 115; 116; 97; 114; 116; 95; 99; 111; 108; 33; 115; 125; 123; 114; 117; 108; 101; 95; 110; 97; 109; 101; 125; 123; 112; 97; 116; 104; 125; 123; 109; 101; 115; 115; 97; 103; 101; 33; 115; 58; 125], Err ValueError);
    ([123; 112; 97; 116; 104; 125; 123; 112; 97; 116; 104; 58; 125; 97], Ok [97; 47; 98; 46; 112; 121; 97; 47; 98; 46; 112; 121; 97]);
    ([32; 123; 125; 123; 109; 101; 115; 115; 97; 103; 101], Err IndexError);
    ([123; 115; 116; 97; 114; 116; 95; 99; 111; 108; 58; 125; 123; 123; 110; 111; 112; 101; 125; 123; 123; 58], Err ValueError);
    ([123; 123; 123; 115; 116; 97; 114; 116; 95; 99; 111; 108; 33; 115; 125], Ok [123; 52]);
    ([123; 114; 117; 108; 101; 95; 110; 97; 109; 101; 123; 112; 97; 116; 104; 125; 123; 109; 101; 115; 115; 97; 103; 101; 125], Err ValueError);
    ([48; 123; 110; 111; 112; 101; 125; 93], Err KeyError);
    ([123; 112; 97; 116; 104; 33; 115; 125; 123; 109; 101; 115; 115; 97; 103; 101; 33; 115; 58; 125], Ok [97; 47; 98; 46; 112; 121; 85; 115; 101; 32; 123; 120; 125; 32; 40; 104; 97; 115; 32; 97; 117; 116; 111; 102; 105; 120; 41]);
    ([32; 125], Err ValueError);
    ([123; 115; 116; 97; 114; 116; 95; 99; 111; 108; 125; 123; 115; 116; 97; 114; 116; 95; 99; 111; 108; 125; 33; 122; 33; 123; 109; 101; 115; 115; 97; 103; 101; 33; 115; 32; 125], Err ValueError);
    ([123; 109; 101; 115; 115; 97; 103; 101; 33; 115; 32; 125], Err ValueError);
    ([123; 112; 97; 116; 104; 33; 115; 33; 33; 122], Err ValueError);
    ([91; 123; 109; 101; 115; 115; 97; 103; 101; 125], Ok [91; 85; 115; 101; 32; 123; 120; 125; 32; 40; 104; 97; 115; 32; 97; 117; 116; 111; 102; 105; 120; 41]);
    ([33; 115; 123; 115; 116; 97; 114; 116; 95; 108; 105; 110; 101; 58; 125], Ok [33; 115; 49; 50]);
    ([123; 48; 125; 123; 114; 117; 108; 101; 95; 110; 97; 109; 101; 125; 123; 114; 117; 108; 101; 95; 110; 97; 109; 101; 123; 115; 116; 97; 114; 116; 95; 99; 111; 108; 125], Err IndexError);
    ([123; 109; 101; 115; 115; 97; 103; 101; 33; 122; 125], Err ValueError);
    ([123; 109; 101; 115; 115; 97; 103; 101; 123; 109; 101; 115; 115; 97; 103; 101; 123; 115; 116; 97; 114; 116; 95; 108; 105; 110; 101], Err ValueError);
    ([123; 114; 117; 108; 101; 95; 110; 97; 109; 101; 33; 122; 125; 125; 125; 33; 115; 123; 115; 116; 97; 114; 116; 95; 108; 105; 110; 101; 58; 125; 46; 123; 123], Err ValueError);
    ([48; 46; 123; 115; 116; 97; 114; 116; 95; 108; 105; 110; 101; 115], Err ValueError);
    ([123; 115; 116; 97; 114; 116; 95; 99; 111; 108; 58; 125; 123; 123; 123; 115; 116; 97; 114; 116; 95; 108; 105; 110; 101; 125; 123; 123], Ok [52; 123; 49; 50; 123]);
    ([33; 123; 115; 116; 97; 114; 116; 95; 99; 111; 108; 58; 123; 115; 116; 97; 114; 116; 95; 99; 111; 108; 125; 123; 109; 101; 115; 115; 97; 103; 101], Err ValueError);
    ([115; 123; 123; 123; 110; 111; 112; 101; 125; 123; 115; 116; 97; 114; 116; 95; 108; 105; 110; 101; 125; 123; 112; 97; 116; 104; 125], Err KeyError);
    ([123; 55; 97; 125; 123; 112; 97; 116; 104; 125], Err KeyError);
    ([123; 109; 101; 115; 115; 97; 103; 101; 125; 33; 93], Ok [85; 115; 101; 32; 123; 120; 125; 32; 40; 104; 97; 115; 32; 97; 117; 116; 111; 102; 105; 120; 41; 33; 93]);
    ([123; 123; 93; 123; 114; 117; 108; 101; 95; 110; 97; 109; 101; 33], Err ValueError);
    ([123; 115; 116; 97; 114; 116; 95; 108; 105; 110; 101; 125; 123; 112; 97; 116; 104; 125; 123; 123; 123; 115; 116; 97; 114; 116; 95; 108; 105; 110; 101; 125; 123; 109; 101; 115; 115; 97; 103; 101; 125; 46], Ok [49; 50; 97; 47; 98; 46; 112; 121; 123; 49; 50; 85; 115; 101; 32; 123; 120; 125; 32; 40; 104; 97; 115; 32; 97; 117; 116; 111; 102; 105; 120; 41; 46]);
    ([123; 109; 101; 115; 115; 97; 103; 101; 123; 109; 101; 115; 115; 97; 103; 101; 33; 115; 32; 125; 125; 125; 123; 115; 116; 97; 114; 116; 95; 99; 111; 108; 125; 125; 125; 123; 115; 116; 97; 114; 116; 95; 99; 111; 108; 58; 125], Err ValueError);
    ([97; 123; 112; 97; 116; 104; 125], Ok [97; 97; 47; 98; 46; 112; 121]);
    ([48; 123; 112; 97; 116; 104; 58; 125; 123; 110; 111; 112; 101; 125; 32], Err KeyError);
    ([93; 123; 115; 116; 97; 114; 116; 95; 99; 111; 108; 123; 109; 101; 115; 115; 97; 103; 101; 123; 55; 97; 125; 123; 114; 117; 108; 101; 95; 110; 97; 109; 101; 125], Err ValueError);
    ([123; 112; 97; 116; 104; 33; 115; 58; 125; 123; 115; 116; 97; 114; 116; 95; 99; 111; 108; 33; 115; 58; 125; 33; 91; 93], Ok [97; 47; 98; 46; 112; 121; 52; 33; 91; 93]);
    ([33; 122; 123; 123; 46; 123; 112; 97; 116; 104; 33; 115; 58; 125; 32], Ok [33; 122; 123; 46; 97; 47; 98; 46; 112; 121; 32]);
    ([123; 109; 101; 115; 115; 97; 103; 101; 125; 123; 109; 101; 115; 115; 97; 103; 101; 125; 93; 97; 123; 109; 101; 115; 115; 97; 103; 101; 125; 33; 115], Ok [85; 115; 101; 32; 123; 120; 125; 32; 40; 104; 97; 115; 32; 97; 117; 116; 111; 102; 105; 120; 41; 85; 115; 101; 32; 123; 120; 125; 32; 40; 104; 97; 115; 32; 97; 117; 116; 111; 102; 105; 120; 41; 93; 97; 85; 115; 101; 32; 123; 120; 125; 32; 40; 104; 97; 115; 32; 97; 117; 116; 111; 102; 105; 120; 41; 33; 115]);
    ([123; 115; 116; 97; 114; 116; 95; 99; 111; 108; 125; 123; 112; 97; 116; 104; 58; 125; 91; 33; 122; 33; 115; 123; 115; 116; 97; 114; 116; 95; 108; 105; 110; 101], Err ValueError);
    ([123; 115; 116; 97; 114; 116; 95; 99; 111; 108; 125; 123; 115; 116; 97; 114; 116; 95; 99; 111; 108; 125; 123; 114; 117; 108; 101; 95; 110; 97; 109; 101; 123; 115; 116; 97; 114; 116; 95; 99; 111; 108; 125; 123; 112; 97; 116; 104; 125], Err ValueError);
    ([123; 115; 116; 97; 114; 116; 95; 99; 111; 108; 33; 122; 48; 48; 123; 109; 101; 115; 115; 97; 103; 101; 125], Err ValueError);
    ([123; 112; 97; 116; 104; 33; 115; 125; 32; 123; 115; 116; 97; 114; 116; 95; 99; 111; 108; 125], Ok [97; 47; 98; 46; 112; 121; 32; 52]);
    ([33; 122; 123; 48; 125; 123; 109; 101; 115; 115; 97; 103; 101; 125; 123; 115; 116; 97; 114; 116; 95; 99; 111; 108; 125; 33], Err IndexError);
    ([123; 114; 117; 108; 101; 95; 110; 97; 109; 101; 125; 123; 112; 97; 116; 104; 33; 122; 125; 32; 123; 115; 116; 97; 114; 116; 95; 99; 111; 108; 125; 123; 114; 117; 108; 101; 95; 110; 97; 109; 101; 125], Err ValueError);
    ([123; 109; 101; 115; 115; 97; 103; 101; 125; 123; 125; 32; 58; 123; 109; 101; 115; 115; 97; 103; 101; 125; 123; 112; 97; 116; 104], Err IndexError);
    ([123; 125; 123; 115; 116; 97; 114; 116; 95; 108; 105; 110; 101; 123; 115; 116; 97; 114; 116; 95; 99; 111; 108; 125; 123; 115; 116; 97; 114; 116; 95; 108; 105; 110; 101; 58; 125; 123; 109; 101; 115; 115; 97; 103; 101; 58; 125; 123; 115; 116; 97; 114; 116; 95; 99; 111; 108; 125], Err IndexError);
    ([123; 115; 116; 97; 114; 116; 95; 108; 105; 110; 101; 125; 123; 112; 97; 116; 104; 123; 114; 117; 108; 101; 95; 110; 97; 109; 101; 33; 115; 125; 123; 114; 117; 108; 101; 95; 110; 97; 109; 101], Err ValueError);
    ([123; 115; 116; 97; 114; 116; 95; 99; 111; 108; 125; 123; 91; 123; 115; 116; 97; 114; 116; 95; 99; 111; 108; 33; 122; 125; 123; 115; 116; 97; 114; 116; 95; 108; 105; 110; 101; 125; 123; 114; 117; 108; 101; 95; 110; 97; 109; 101; 33; 115; 125], Err ValueError);
    ([123; 115; 116; 97; 114; 116; 95; 108; 105; 110; 101; 123; 115; 116; 97; 114; 116; 95; 99; 111; 108; 123; 114; 117; 108; 101; 95; 110; 97; 109; 101; 123; 109; 101; 115; 115; 97; 103; 101; 33; 122; 125], Err ValueError);
    ([123; 112; 97; 116; 104; 33; 122; 125; 123; 109; 101; 115; 115; 97; 103; 101; 125; 123; 115; 116; 97; 114; 116; 95; 99; 111; 108; 125; 123; 115; 116; 97; 114; 116; 95; 99; 111; 108; 125; 93], Err ValueError);
    ([123; 115; 116; 97; 114; 116; 95; 108; 105; 110; 101; 125; 123; 112; 97; 116; 104; 125; 33; 123; 123], Ok [49; 50; 97; 47; 98; 46; 112; 121; 33; 123]);
    ([123; 115; 116; 97; 114; 116; 95; 108; 105; 110; 101; 125; 123; 115; 116; 97; 114; 116; 95; 108; 105; 110; 101; 125; 123; 112; 97; 116; 104; 125; 48; 125; 125], Ok [49; 50; 49; 50; 97; 47; 98; 46; 112; 121; 48; 125]);
    ([33; 122; 93; 123; 112; 97; 116; 104; 125], Ok [33; 122; 93; 97; 47; 98; 46; 112; 121]);
    ([123; 109; 101; 115; 115; 97; 103; 101; 125; 123; 114; 117; 108; 101; 95; 110; 97; 109; 101; 125; 123; 109; 101; 115; 115; 97; 103; 101; 123; 123], Err ValueError);
    ([123; 115; 116; 97; 114; 116; 95; 108; 105; 110; 101; 125; 123; 123; 115; 116; 97; 114; 116; 95; 99; 111; 108; 33; 115; 58; 125], Err ValueError);
    ([123; 109; 101; 115; 115; 97; 103; 101; 125; 33; 115], Ok [85; 115; 101; 32; 123; 120; 125; 32; 40; 104; 97; 115; 32; 97; 117; 116; 111; 102; 105; 120; 41; 33; 115]);
    ([123; 115; 116; 97; 114; 116; 95; 99; 111; 108; 125; 33; 115; 33; 115; 123; 114; 117; 108; 101; 95; 110; 97; 109; 101; 58; 125], Ok [52; 33; 115; 33; 115; 83; 111; 109; 101]);
    ([123; 112; 97; 116; 104; 125; 123; 112; 97; 116; 104; 33; 122; 125; 123; 114; 117; 108; 101; 95; 110; 97; 109; 101; 33; 115; 32; 125], Err ValueError);
    ([123; 115; 116; 97; 114; 116; 95; 99; 111; 108; 33; 115; 32; 125; 123; 115; 116; 97; 114; 116; 95; 99; 111; 108; 125; 91; 32; 123; 115; 116; 97; 114; 116; 95; 108; 105; 110; 101; 123; 115; 116; 97; 114; 116; 95; 108; 105; 110; 101; 33; 115; 58; 125], Err ValueError);
    ([123; 115; 116; 97; 114; 116; 95; 99; 111; 108; 58; 125; 123; 112; 97; 116; 104; 125; 115; 123; 55; 97; 125; 123; 115; 116; 97; 114; 116; 95; 99; 111; 108; 125; 125], Err KeyError);
    ([91; 123; 123; 123; 115; 116; 97; 114; 116; 95; 108; 105; 110; 101; 123; 115; 116; 97; 114; 116; 95; 99; 111; 108; 125; 123; 115; 116; 97; 114; 116; 95; 99; 111; 108; 125], Err ValueError);
    ([123; 115; 116; 97; 114; 116; 95; 108; 105; 110; 101; 33; 115; 125; 123; 112; 97; 116; 104], Err ValueError);
    ([123; 109; 101; 115; 115; 97; 103; 101; 125; 123; 109; 101; 115; 115; 97; 103; 101; 125; 123; 115; 116; 97; 114; 116; 95; 108; 105; 110; 101; 125; 123; 115; 116; 97; 114; 116; 95; 99; 111; 108; 125; 123; 114; 117; 108; 101; 95; 110; 97; 109; 101; 125; 123; 112; 97; 116; 104; 125], Ok [85; 115; 101; 32; 123; 120; 125; 32; 40; 104; 97; 115; 32; 97; 117; 116; 111; 102; 105; 120; 41; 85; 115; 101; 32; 123; 120; 125; 32; 40; 104; 97; 115; 32; 97; 117; 116; 111; 102; 105; 120; 41; 49; 50; 52; 83; 111; 109; 101; 97; 47; 98; 46; 112; 121]);
    ([123; 115; 116; 97; 114; 116; 95; 108; 105; 110; 101; 125; 33; 123; 112; 97; 116; 104; 125; 123; 115; 116; 97; 114; 116; 95; 108; 105; 110; 101; 125; 58; 123; 109; 101; 115; 115; 97; 103; 101; 125], Ok [49; 50; 33; 97; 47; 98; 46; 112; 121; 49; 50; 58; 85; 115; 101; 32; 123; 120; 125; 32; 40; 104; 97; 115; 32; 97; 117; 116; 111; 102; 105; 120; 41]);
    ([97; 123; 115; 116; 97; 114; 116; 95; 108; 105; 110; 101; 125; 123; 114; 117; 108; 101; 95; 110; 97; 109; 101; 125; 123; 115; 116; 97; 114; 116; 95; 108; 105; 110; 101; 33; 115; 32; 125], Err ValueError);
    ([58; 123; 115; 116; 97; 114; 116; 95; 108; 105; 110; 101; 125; 123; 109; 101; 115; 115; 97; 103; 101; 125; 97; 123; 112; 97; 116; 104; 125], Ok [58; 49; 50; 85; 115; 101; 32; 123; 120; 125; 32; 40; 104; 97; 115; 32; 97; 117; 116; 111; 102; 105; 120; 41; 97; 97; 47; 98; 46; 112; 121]);
    ([123; 112; 97; 116; 104; 125; 123; 115; 116; 97; 114; 116; 95; 108; 105; 110; 101; 123; 112; 97; 116; 104; 125; 123; 114; 117; 108; 101; 95; 110; 97; 109; 101; 125], Err ValueError);
    ([32; 123; 114; 117; 108; 101; 95; 110; 97; 109; 101; 125; 123; 114; 117; 108; 101; 95; 110; 97; 109; 101; 125; 123; 115; 116; 97; 114; 116; 95; 108; 105; 110; 101; 123; 109; 101; 115; 115; 97; 103; 101; 125; 93], Err ValueError);
    ([123; 123; 123; 114; 117; 108; 101; 95; 110; 97; 109; 101; 123; 115; 116; 97; 114; 116; 95; 108; 105; 110; 101; 125; 97; 93], Err ValueError);
    ([123; 114; 117; 108; 101; 95; 110; 97; 109; 101; 125; 115], Ok [83; 111; 109; 101; 115]);
    ([123; 114; 117; 108; 101; 95; 110; 97; 109; 101; 125; 123; 115; 116; 97; 114; 116; 95; 99; 111; 108; 125; 123; 109; 101; 115; 115; 97; 103; 101; 125; 115; 123; 115; 116; 97; 114; 116; 95; 108; 105; 110; 101; 125], Ok [83; 111; 109; 101; 52; 85; 115; 101; 32; 123; 120; 125; 32; 40; 104; 97; 115; 32; 97; 117; 116; 111; 102; 105; 120; 41; 115; 49; 50]);
    ([123; 114; 117; 108; 101; 95; 110; 97; 109; 101; 125; 33; 122; 123; 115; 116; 97; 114; 116; 95; 99; 111; 108; 123; 114; 117; 108; 101; 95; 110; 97; 109; 101; 125; 123; 112; 97; 116; 104], Err ValueError);
    ([123; 123; 112; 97; 116; 104; 125; 123; 115; 116; 97; 114; 116; 95; 99; 111; 108; 125; 33; 115; 125; 125; 123; 77; 101; 115; 115; 97; 103; 101; 125], Err ValueError);
    ([33; 115; 125; 125; 125], Err ValueError);
    ([123; 109; 101; 115; 115; 97; 103; 101; 125; 123; 112; 97; 116; 104; 125; 123; 115; 116; 97; 114; 116; 95; 99; 111; 108; 125], Ok [85; 115; 101; 32; 123; 120; 125; 32; 40; 104; 97; 115; 32; 97; 117; 116; 111; 102; 105; 120; 41; 97; 47; 98; 46; 112; 121; 52]);
    ([123; 112; 97; 116; 104; 125; 32; 123; 109; 101; 115; 115; 97; 103; 101; 125; 123; 114; 117; 108; 101; 95; 110; 97; 109; 101; 125; 123; 115; 116; 97; 114; 116; 95; 99; 111; 108; 97], Err ValueError);
    ([123; 114; 117; 108; 101; 95; 110; 97; 109; 101; 125; 123; 114; 117; 108; 101; 95; 110; 97; 109; 101; 125; 123], Err ValueError);
    ([123; 114; 117; 108; 101; 95; 110; 97; 109; 101; 125; 123; 115; 116; 97; 114; 116; 95; 108; 105; 110; 101; 125; 125; 123; 114; 117; 108; 101; 95; 110; 97; 109; 101; 125; 123; 112; 97; 116; 104; 125], Err ValueError);
    ([58; 123; 115; 116; 97; 114; 116; 95; 108; 105; 110; 101; 125; 125; 125], Ok [58; 49; 50; 125]);
    ([123; 115; 116; 97; 114; 116; 95; 108; 105; 110; 101; 125; 123; 114; 117; 108; 101; 95; 110; 97; 109; 101; 125; 93; 125; 125; 123; 109; 101; 115; 115; 97; 103; 101; 125], Ok [49; 50; 83; 111; 109; 101; 93; 125; 85; 115; 101; 32; 123; 120; 125; 32; 40; 104; 97; 115; 32; 97; 117; 116; 111; 102; 105; 120; 41]);
    ([123; 112; 97; 116; 104; 125; 48; 33; 123; 93], Err ValueError);
    ([123; 115; 116; 97; 114; 116; 95; 108; 105; 110; 101; 125; 123; 110; 111; 112; 101; 125; 123; 109; 101; 115; 115; 97; 103; 101], Err KeyError);
    ([125; 125; 123; 114; 117; 108; 101; 95; 110; 97; 109; 101; 125; 46; 123; 115; 116; 97; 114; 116; 95; 99; 111; 108; 125], Ok [125; 83; 111; 109; 101; 46; 52]);
    ([123; 115; 116; 97; 114; 116; 95; 99; 111; 108; 125; 33; 115; 123; 114; 117; 108; 101; 95; 110; 97; 109; 101; 125; 97; 123; 109; 101; 115; 115; 97; 103; 101; 125; 123; 115; 116; 97; 114; 116; 95; 108; 105; 110; 101; 33; 125], Err ValueError);
    ([123; 115; 116; 97; 114; 116; 95; 108; 105; 110; 101; 123; 115; 116; 97; 114; 116; 95; 99; 111; 108; 125], Err ValueError);
    ([33; 33; 122; 123; 114; 117; 108; 101; 95; 110; 97; 109; 101; 125; 123; 112; 97; 116; 104], Err ValueError);
    ([32; 123; 115; 116; 97; 114; 116; 95; 99; 111; 108; 125; 32], Ok [32; 52; 32]);
    ([123; 55; 97; 125; 91; 123; 114; 117; 108; 101; 95; 110; 97; 109; 101], Err KeyError);
    ([48; 123; 109; 101; 115; 115; 97; 103; 101; 125; 123; 123], Ok [48; 85; 115; 101; 32; 123; 120; 125; 32; 40; 104; 97; 115; 32; 97; 117; 116; 111; 102; 105; 120; 41; 123]);
    ([123; 112; 97; 116; 104; 125; 123; 114; 117; 108; 101; 95; 110; 97; 109; 101; 125; 46; 91; 123; 109; 101; 115; 115; 97; 103; 101; 58; 125; 46], Ok [97; 47; 98; 46; 112; 121; 83; 111; 109; 101; 46; 91; 85; 115; 101; 32; 123; 120; 125; 32; 40; 104; 97; 115; 32; 97; 117; 116; 111; 102; 105; 120; 41; 46]);
    ([123; 48; 125; 32; 123; 125; 123; 114; 117; 108; 101; 95; 110; 97; 109; 101; 33; 115; 32; 125], Err IndexError);
    ([91; 32; 123; 114; 117; 108; 101; 95; 110; 97; 109; 101; 125; 46], Ok [91; 32; 83; 111; 109; 101; 46]);
    ([32; 58; 123; 109; 101; 115; 115; 97; 103; 101; 125; 123; 112; 97; 116; 104; 125], Ok [32; 58; 85; 115; 101; 32; 123; 120; 125; 32; 40; 104; 97; 115; 32; 97; 117; 116; 111; 102; 105; 120; 41; 97; 47; 98; 46; 112; 121]);
    ([123; 109; 101; 115; 115; 97; 103; 101; 33; 115; 32; 125; 123; 112; 97; 116; 104; 125; 123; 109; 101; 115; 115; 97; 103; 101; 33; 115; 32; 125], Err ValueError);
    ([33; 115; 123; 112; 97; 116; 104; 125; 123; 115; 116; 97; 114; 116; 95; 108; 105; 110; 101; 58; 125], Ok [33; 115; 97; 47; 98; 46; 112; 121; 49; 50]);
    ([123; 114; 117; 108; 101; 95; 110; 97; 109; 101; 125; 125; 123; 114; 117; 108; 101; 95; 110; 97; 109; 101; 33; 125; 125; 123; 109; 101; 115; 115; 97; 103; 101; 125; 58], Err ValueError);
    ([58; 33; 122; 123; 114; 117; 108; 101; 95; 110; 97; 109; 101; 125; 123; 115; 116; 97; 114; 116; 95; 99; 111; 108; 125; 33; 115; 115], Ok [58; 33; 122; 83; 111; 109; 101; 52; 33; 115; 115]);
    ([32; 123; 112; 97; 116; 104; 125; 123; 112; 97; 116; 104; 125; 123; 115; 116; 97; 114; 116; 95; 108; 105; 110; 101; 125], Ok [32; 97; 47; 98; 46; 112; 121; 97; 47; 98; 46; 112; 121; 49; 50]);
    ([48; 123; 115; 116; 97; 114; 116; 95; 108; 105; 110; 101; 125; 97; 91; 123; 115; 116; 97; 114; 116; 95; 99; 111; 108; 33; 125; 93], Err ValueError);
    ([58; 123; 115; 116; 97; 114; 116; 95; 108; 105; 110; 101; 125; 93], Ok [58; 49; 50; 93]);
    ([32; 125; 123; 109; 101; 115; 115; 97; 103; 101; 125], Err ValueError);
    ([123; 115; 116; 97; 114; 116; 95; 99; 111; 108; 33; 115; 32; 125; 123; 123], Err ValueError);
    ([123; 114; 117; 108; 101; 95; 110; 97; 109; 101; 125; 123; 114; 117; 108; 101; 95; 110; 97; 109; 101; 125; 123; 109; 101; 115; 115; 97; 103; 101], Err ValueError);
    ([123; 114; 117; 108; 101; 95; 110; 97; 109; 101; 33; 125; 91; 125; 123; 77; 101; 115; 115; 97; 103; 101; 125; 123; 114; 117; 108; 101; 95; 110; 97; 109; 101; 33; 115; 58; 125], Err ValueError);
    ([97; 125; 123; 77; 101; 115; 115; 97; 103; 101; 125], Err ValueError);
    ([48; 123; 112; 97; 116; 104; 125; 125; 123], Err ValueError);
    ([123; 123; 123; 109; 101; 115; 115; 97; 103; 101; 123; 33; 115; 48; 97], Err ValueError);
    ([123; 115; 116; 97; 114; 116; 95; 108; 105; 110; 101; 125; 32; 123; 115; 116; 97; 114; 116; 95; 108; 105; 110; 101; 125], Ok [49; 50; 32; 49; 50]);
    ([115; 32; 123; 109; 101; 115; 115; 97; 103; 101; 58; 125; 123; 114; 117; 108; 101; 95; 110; 97; 109; 101; 125; 123; 55; 97; 125; 125; 125], Err KeyError);
    ([32; 123; 109; 101; 115; 115; 97; 103; 101; 125; 123; 109; 101; 115; 115; 97; 103; 101; 58; 125; 123; 114; 117; 108; 101; 95; 110; 97; 109; 101; 125; 123; 112; 97; 116; 104; 125; 93], Ok [32; 85; 115; 101; 32; 123; 120; 125; 32; 40; 104; 97; 115; 32; 97; 117; 116; 111; 102; 105; 120; 41; 85; 115; 101; 32; 123; 120; 125; 32; 40; 104; 97; 115; 32; 97; 117; 116; 111; 102; 105; 120; 41; 83; 111; 109; 101; 97; 47; 98; 46; 112; 121; 93]);
    ([33; 122; 46; 123; 109; 101; 115; 115; 97; 103; 101; 33; 125], Err ValueError);
    ([123; 77; 101; 115; 115; 97; 103; 101; 125; 125; 97; 123; 109; 101; 115; 115; 97; 103; 101; 125; 46], Err KeyError);
    ([123; 114; 117; 108; 101; 95; 110; 97; 109; 101; 125; 123; 112; 97; 116; 104; 125], Ok [83; 111; 109; 101; 97; 47; 98; 46; 112; 121]);
    ([123; 112; 97; 116; 104; 33; 122; 125; 125; 125; 123; 110; 111; 112; 101; 125; 123; 115; 116; 97; 114; 116; 95; 108; 105; 110; 101; 125; 123; 109; 101; 115; 115; 97; 103; 101; 123; 115; 116; 97; 114; 116; 95; 99; 111; 108; 33; 115; 125], Err ValueError);
    ([123; 115; 116; 97; 114; 116; 95; 99; 111; 108; 58; 125; 123; 115; 116; 97; 114; 116; 95; 99; 111; 108; 123; 48; 125], Err ValueError);
    ([123; 115; 116; 97; 114; 116; 95; 99; 111; 108; 33; 125; 97; 123; 115; 116; 97; 114; 116; 95; 108; 105; 110; 101; 125; 123; 115; 116; 97; 114; 116; 95; 99; 111; 108; 33; 115; 32; 125], Err ValueError);
    ([123; 115; 116; 97; 114; 116; 95; 99; 111; 108; 125; 93; 123; 77; 101; 115; 115; 97; 103; 101; 125; 123; 48; 125; 123; 115; 116; 97; 114; 116; 95; 108; 105; 110; 101; 33; 122; 125; 93], Err KeyError);
    ([123; 112; 97; 116; 104; 125; 123; 112; 97; 116; 104; 125; 115; 33; 115], Ok [97; 47; 98; 46; 112; 121; 97; 47; 98; 46; 112; 121; 115; 33; 115]);
    ([58; 123; 115; 116; 97; 114; 116; 95; 99; 111; 108; 125; 123; 115; 116; 97; 114; 116; 95; 108; 105; 110; 101; 123; 112; 97; 116; 104], Err ValueError);
    ([123; 115; 116; 97; 114; 116; 95; 108; 105; 110; 101; 125; 48; 48; 123; 114; 117; 108; 101; 95; 110; 97; 109; 101; 33; 125; 33; 115], Err ValueError);
    ([123; 112; 97; 116; 104; 33; 115; 125; 123; 112; 97; 116; 104; 123; 55; 97; 125], Err ValueError);
    ([115; 33; 122; 123; 114; 117; 108; 101; 95; 110; 97; 109; 101; 125; 123; 115; 116; 97; 114; 116; 95; 108; 105; 110; 101; 125], Ok [115; 33; 122; 83; 111; 109; 101; 49; 50]);
    ([32; 123; 114; 117; 108; 101; 95; 110; 97; 109; 101; 33; 125; 123; 112; 97; 116; 104; 125; 123; 48; 125], Err ValueError);
    ([123; 115; 116; 97; 114; 116; 95; 108; 105; 110; 101; 125; 46; 58; 123; 109; 101; 115; 115; 97; 103; 101; 123; 115; 116; 97; 114; 116; 95; 99; 111; 108], Err ValueError);
    ([115; 123; 114; 117; 108; 101; 95; 110; 97; 109; 101], Err ValueError);
    ([123; 123; 115; 116; 97; 114; 116; 95; 99; 111; 108; 125; 123; 115; 116; 97; 114; 116; 95; 108; 105; 110; 101; 125; 123; 115; 116; 97; 114; 116; 95; 108; 105; 110; 101; 125; 123; 55; 97; 125], Err ValueError);
    ([123; 115; 116; 97; 114; 116; 95; 108; 105; 110; 101; 33; 115; 32; 125], Err ValueError);
    ([125; 125; 123; 115; 116; 97; 114; 116; 95; 99; 111; 108; 125; 123; 109; 101; 115; 115; 97; 103; 101], Err ValueError);
    ([91; 93; 123; 112; 97; 116; 104; 125; 123; 114; 117; 108; 101; 95; 110; 97; 109; 101; 125; 33; 122], Ok [91; 93; 97; 47; 98; 46; 112; 121; 83; 111; 109; 101; 33; 122]);
    ([48; 58], Ok [48; 58]);
    ([123; 114; 117; 108; 101; 95; 110; 97; 109; 101; 97; 48; 93; 123; 77; 101; 115; 115; 97; 103; 101; 125], Err ValueError);
    ([123; 115; 116; 97; 114; 116; 95; 99; 111; 108; 125; 33; 122; 123; 115; 116; 97; 114; 116; 95; 99; 111; 108; 32; 123; 115; 116; 97; 114; 116; 95; 99; 111; 108; 125; 123; 109; 101; 115; 115; 97; 103; 101; 58; 125], Err ValueError);
    ([123; 114; 117; 108; 101; 95; 110; 97; 109; 101; 123; 109; 101; 115; 115; 97; 103; 101; 33; 115; 125; 123; 114; 117; 108; 101; 95; 110; 97; 109; 101; 123; 115; 116; 97; 114; 116; 95; 99; 111; 108; 125; 123; 114; 117; 108; 101; 95; 110; 97; 109; 101], Err ValueError);
    ([123; 115; 116; 97; 114; 116; 95; 108; 105; 110; 101; 125; 115; 123; 109; 101; 115; 115; 97; 103; 101; 33; 115; 125; 123; 115; 116; 97; 114; 116; 95; 108; 105; 110; 101; 125; 32; 93], Ok [49; 50; 115; 85; 115; 101; 32; 123; 120; 125; 32; 40; 104; 97; 115; 32; 97; 117; 116; 111; 102; 105; 120; 41; 49; 50; 32; 93]);
    ([123; 112; 97; 116; 104; 125; 33; 115; 123; 112; 97; 116; 104; 125; 123; 115; 116; 97; 114; 116; 95; 108; 105; 110; 101; 125; 123; 115; 116; 97; 114; 116; 95; 108; 105; 110; 101; 125], Ok [97; 47; 98; 46; 112; 121; 33; 115; 97; 47; 98; 46; 112; 121; 49; 50; 49; 50]);
    ([48; 115], Ok [48; 115]);
    ([123; 115; 116; 97; 114; 116; 95; 108; 105; 110; 101; 123; 48; 125; 123; 109; 101; 115; 115; 97; 103; 101; 125; 123; 109; 101; 115; 115; 97; 103; 101; 125; 125; 125; 91], Err ValueError);
    ([123; 115; 116; 97; 114; 116; 95; 99; 111; 108; 123; 112; 97; 116; 104; 123; 114; 117; 108; 101; 95; 110; 97; 109; 101; 125], Err ValueError);
    ([123; 112; 97; 116; 104; 123; 112; 97; 116; 104; 125; 93; 123; 115; 116; 97; 114; 116; 95; 108; 105; 110; 101; 58; 125; 123; 114; 117; 108; 101; 95; 110; 97; 109; 101; 125; 123; 115; 116; 97; 114; 116; 95; 108; 105; 110; 101; 125], Err ValueError);
    ([123; 115; 116; 97; 114; 116; 95; 99; 111; 108; 125; 48; 123; 112; 97; 116; 104; 125], Ok [52; 48; 97; 47; 98; 46; 112; 121]);
    ([58; 123; 114; 117; 108; 101; 95; 110; 97; 109; 101; 125; 123; 114; 117; 108; 101; 95; 110; 97; 109; 101; 125; 97], Ok [58; 83; 111; 109; 101; 83; 111; 109; 101; 97]);
    ([123; 109; 101; 115; 115; 97; 103; 101; 125; 123; 55; 97; 125; 123; 114; 117; 108; 101; 95; 110; 97; 109; 101; 125; 123; 115; 116; 97; 114; 116; 95; 108; 105; 110; 101], Err KeyError);
    ([123; 109; 101; 115; 115; 97; 103; 101; 125; 123; 125; 125; 123; 115; 116; 97; 114; 116; 95; 99; 111; 108; 33; 122; 125; 123; 115; 116; 97; 114; 116; 95; 108; 105; 110; 101; 125], Err IndexError);
    ([123; 123; 123; 123; 112; 97; 116; 104; 125], Err ValueError);
    ([123; 115; 116; 97; 114; 116; 95; 108; 105; 110; 101; 125; 33; 115; 123; 115; 116; 97; 114; 116; 95; 99; 111; 108; 125; 123; 115; 116; 97; 114; 116; 95; 99; 111; 108; 125; 125; 125; 33; 115], Ok [49; 50; 33; 115; 52; 52; 125; 33; 115]);
    ([115; 123; 115; 116; 97; 114; 116; 95; 108; 105; 110; 101; 125; 58], Ok [115; 49; 50; 58]);
    ([32; 125; 125; 123; 123; 114; 117; 108; 101; 95; 110; 97; 109; 101; 125], Err ValueError);
    ([115; 123; 115; 116; 97; 114; 116; 95; 99; 111; 108; 125; 125; 33; 123; 115; 116; 97; 114; 116; 95; 99; 111; 108; 125], Err ValueError);
    ([32; 123; 115; 116; 97; 114; 116; 95; 108; 105; 110; 101; 58; 125], Ok [32; 49; 50]);
    ([33; 123; 115; 116; 97; 114; 116; 95; 99; 111; 108; 125; 123; 109; 101; 115; 115; 97; 103; 101; 91; 123; 115; 116; 97; 114; 116; 95; 108; 105; 110; 101; 125], Err ValueError);
    ([123; 115; 116; 97; 114; 116; 95; 99; 111; 108; 123; 125; 123; 109; 101; 115; 115; 97; 103; 101; 125; 123], Err ValueError);
    ([123; 109; 101; 115; 115; 97; 103; 101; 33; 115; 58; 125; 58], Ok [85; 115; 101; 32; 123; 120; 125; 32; 40; 104; 97; 115; 32; 97; 117; 116; 111; 102; 105; 120; 41; 58]);
    ([123; 115; 116; 97; 114; 116; 95; 108; 105; 110; 101; 125; 33], Ok [49; 50; 33]);
    ([123; 115; 116; 97; 114; 116; 95; 99; 111; 108; 125; 91; 33; 115; 123; 109; 101; 115; 115; 97; 103; 101; 33; 123; 114; 117; 108; 101; 95; 110; 97; 109; 101; 125], Err ValueError);
    ([123; 123; 123; 125; 123; 115; 116; 97; 114; 116; 95; 108; 105; 110; 101; 125; 125; 125; 123; 115; 116; 97; 114; 116; 95; 108; 105; 110; 101], Err IndexError);
    ([123; 115; 116; 97; 114; 116; 95; 108; 105; 110; 101; 33; 122; 125; 123; 115; 116; 97; 114; 116; 95; 99; 111; 108; 58; 33; 122; 123; 109; 101; 115; 115; 97; 103; 101; 123; 109; 101; 115; 115; 97; 103; 101; 125], Err ValueError);
    ([123; 115; 116; 97; 114; 116; 95; 99; 111; 108; 123; 115; 116; 97; 114; 116; 95; 99; 111; 108; 125], Err ValueError);
    ([123; 114; 117; 108; 101; 95; 110; 97; 109; 101; 125; 123; 125; 123; 115; 116; 97; 114; 116; 95; 108; 105; 110; 101; 125], Err IndexError);
    ([123; 115; 116; 97; 114; 116; 95; 108; 105; 110; 101; 125; 91; 48; 123; 115; 116; 97; 114; 116; 95; 99; 111; 108; 58; 125; 123; 115; 116; 97; 114; 116; 95; 99; 111; 108; 125], Ok [49; 50; 91; 48; 52; 52]);
    ([33; 123; 109; 101; 115; 115; 97; 103; 101; 33; 115; 32; 125; 123; 115; 116; 97; 114; 116; 95; 108; 105; 110; 101; 33; 115; 58; 125], Err ValueError);
    ([93; 123; 114; 117; 108; 101; 95; 110; 97; 109; 101; 123; 109; 101; 115; 115; 97; 103; 101; 125], Err ValueError);
    ([123; 77; 101; 115; 115; 97; 103; 101; 125; 123; 109; 101; 115; 115; 97; 103; 101; 125; 123; 123], Err KeyError);
    ([123; 114; 117; 108; 101; 95; 110; 97; 109; 101; 125; 123; 109; 101; 115; 115; 97; 103; 101; 123; 115; 116; 97; 114; 116; 95; 108; 105; 110; 101; 125; 123; 112; 97; 116; 104; 125; 33; 123; 109; 101; 115; 115; 97; 103; 101], Err ValueError);
    ([123; 109; 101; 115; 115; 97; 103; 101; 125; 123; 77; 101; 115; 115; 97; 103; 101; 125; 123; 115; 116; 97; 114; 116; 95; 99; 111; 108; 33; 115; 32; 125; 91; 91], Err KeyError);
    ([123; 109; 101; 115; 115; 97; 103; 101; 33; 115; 58; 125; 123; 109; 101; 115; 115; 97; 103; 101; 125; 123; 123; 46; 48], Ok [85; 115; 101; 32; 123; 120; 125; 32; 40; 104; 97; 115; 32; 97; 117; 116; 111; 102; 105; 120; 41; 85; 115; 101; 32; 123; 120; 125; 32; 40; 104; 97; 115; 32; 97; 117; 116; 111; 102; 105; 120; 41; 123; 46; 48]);
    ([123; 114; 117; 108; 101; 95; 110; 97; 109; 101; 125; 123; 109; 101; 115; 115; 97; 103; 101; 125; 123; 112; 97; 116; 104; 33; 125; 123; 115; 116; 97; 114; 116; 95; 99; 111; 108; 125; 123; 115; 116; 97; 114; 116; 95; 108; 105; 110; 101; 125; 123; 114; 117; 108; 101; 95; 110; 97; 109; 101; 125], Err ValueError);
    ([123; 55; 97; 125; 46; 32; 123; 109; 101; 115; 115; 97; 103; 101; 125; 123; 115; 116; 97; 114; 116; 95; 108; 105; 110; 101; 125], Err KeyError);
    ([123; 109; 101; 115; 115; 97; 103; 101; 125; 33; 122; 46], Ok [85; 115; 101; 32; 123; 120; 125; 32; 40; 104; 97; 115; 32; 97; 117; 116; 111; 102; 105; 120; 41; 33; 122; 46]);
    ([97; 123; 115; 116; 97; 114; 116; 95; 99; 111; 108; 125], Ok [97; 52]);
    ([123; 112; 97; 116; 104; 33; 125; 58; 123; 112; 97; 116; 104], Err ValueError);
    ([123; 115; 116; 97; 114; 116; 95; 99; 111; 108; 125; 123; 115; 116; 97; 114; 116; 95; 108; 105; 110; 101; 125; 123; 115; 116; 97; 114; 116; 95; 108; 105; 110; 101; 125], Ok [52; 49; 50; 49; 50]);
    ([123; 115; 116; 97; 114; 116; 95; 108; 105; 110; 101; 123; 112; 97; 116; 104; 125; 93], Err ValueError);
    ([123; 112; 97; 116; 104; 125; 123; 55; 97; 125], Err KeyError);
    ([123; 112; 97; 116; 104; 125; 123; 115; 116; 97; 114; 116; 95; 108; 105; 110; 101; 125; 123; 115; 116; 97; 114; 116; 95; 108; 105; 110; 101; 33; 115; 32; 125; 33; 122], Err ValueError);
    ([48; 115; 97; 123; 115; 116; 97; 114; 116; 95; 99; 111; 108; 125; 123; 109; 101; 115; 115; 97; 103; 101; 125], Ok [48; 115; 97; 52; 85; 115; 101; 32; 123; 120; 125; 32; 40; 104; 97; 115; 32; 97; 117; 116; 111; 102; 105; 120; 41]);
    ([123; 109; 101; 115; 115; 97; 103; 101; 125; 115; 123; 109; 101; 115; 115; 97; 103; 101; 125; 33; 115; 123; 109; 101; 115; 115; 97; 103; 101; 125], Ok [85; 115; 101; 32; 123; 120; 125; 32; 40; 104; 97; 115; 32; 97; 117; 116; 111; 102; 105; 120; 41; 115; 85; 115; 101; 32; 123; 120; 125; 32; 40; 104; 97; 115; 32; 97; 117; 116; 111; 102; 105; 120; 41; 33; 115; 85; 115; 101; 32; 123; 120; 125; 32; 40; 104; 97; 115; 32; 97; 117; 116; 111; 102; 105; 120; 41]);
    ([123; 112; 97; 116; 104; 125; 58; 93], Ok [97; 47; 98; 46; 112; 121; 58; 93]);
    ([33; 122; 125], Err ValueError);
    ([123; 55; 97; 125; 123; 115; 116; 97; 114; 116; 95; 108; 105; 110; 101; 125; 115], Err KeyError);
    ([33; 123; 114; 117; 108; 101; 95; 110; 97; 109; 101; 125; 33; 115; 123; 115; 116; 97; 114; 116; 95; 108; 105; 110; 101; 125; 123; 115; 116; 97; 114; 116; 95; 99; 111; 108; 93], Err ValueError);
    ([123; 115; 116; 97; 114; 116; 95; 99; 111; 108; 125; 123; 115; 116; 97; 114; 116; 95; 108; 105; 110; 101; 125; 46; 123; 115; 116; 97; 114; 116; 95; 99; 111; 108; 125], Ok [52; 49; 50; 46; 52]);
    ([48; 97; 123; 115; 116; 97; 114; 116; 95; 108; 105; 110; 101; 33; 115; 32; 125; 123; 109; 101; 115; 115; 97; 103; 101; 125; 33; 115; 123; 109; 101; 115; 115; 97; 103; 101; 125], Err ValueError);
    ([123; 115; 116; 97; 114; 116; 95; 108; 105; 110; 101; 33; 115; 125; 125; 123; 123; 115; 116; 97; 114; 116; 95; 108; 105; 110; 101; 125; 123; 114; 117; 108; 101; 95; 110; 97; 109; 101; 33; 125], Err ValueError);
    ([123; 114; 117; 108; 101; 95; 110; 97; 109; 101; 32; 123; 109; 101; 115; 115; 97; 103; 101; 33; 115; 32; 125; 125; 32; 123; 112; 97; 116; 104; 33; 115; 125], Err ValueError);
    ([123; 32], Err ValueError);
    ([93; 125; 125; 123; 109; 101; 115; 115; 97; 103; 101; 123; 77; 101; 115; 115; 97; 103; 101; 125], Err ValueError);
    ([123; 77; 101; 115; 115; 97; 103; 101; 125; 123; 109; 101; 115; 115; 97; 103; 101; 125; 123; 114; 117; 108; 101; 95; 110; 97; 109; 101; 33; 122; 125; 123; 112; 97; 116; 104; 125; 123; 115; 116; 97; 114; 116; 95; 99; 111; 108; 33; 115; 125; 123; 114; 117; 108; 101; 95; 110; 97; 109; 101; 33; 115; 58; 125], Err KeyError);
    ([125; 115; 123; 114; 117; 108; 101; 95; 110; 97; 109; 101; 125; 48; 33; 123; 114; 117; 108; 101; 95; 110; 97; 109; 101; 125], Err ValueError);
    ([123; 55; 97; 125; 123; 114; 117; 108; 101; 95; 110; 97; 109; 101; 125], Err KeyError);
    ([123; 114; 117; 108; 101; 95; 110; 97; 109; 101; 125; 123; 123; 123; 114; 117; 108; 101; 95; 110; 97; 109; 101; 125; 46; 123; 115; 116; 97; 114; 116; 95; 108; 105; 110; 101; 125; 123; 115; 116; 97; 114; 116; 95; 108; 105; 110; 101; 125], Ok [83; 111; 109; 101; 123; 83; 111; 109; 101; 46; 49; 50; 49; 50]);
    ([123; 114; 117; 108; 101; 95; 110; 97; 109; 101; 125; 48; 123; 125; 123; 114; 117; 108; 101; 95; 110; 97; 109; 101; 33; 115; 58; 125; 123; 114; 117; 108; 101; 95; 110; 97; 109; 101; 125], Err IndexError);
    ([123; 114; 117; 108; 101; 95; 110; 97; 109; 101; 123; 115; 116; 97; 114; 116; 95; 108; 105; 110; 101; 125; 123; 55; 97; 125; 123; 115; 116; 97; 114; 116; 95; 108; 105; 110; 101; 33; 115; 58; 125; 33; 122], Err ValueError);
    ([123; 112; 97; 116; 104; 125; 125; 123; 115; 116; 97; 114; 116; 95; 99; 111; 108; 97; 97], Err ValueError);
    ([125; 123; 114; 117; 108; 101; 95; 110; 97; 109; 101; 125; 123; 115; 116; 97; 114; 116; 95; 99; 111; 108; 125; 123; 115; 116; 97; 114; 116; 95; 99; 111; 108; 125; 123; 115; 116; 97; 114; 116; 95; 108; 105; 110; 101; 125; 123; 109; 101; 115; 115; 97; 103; 101; 33; 115; 125], Err ValueError);
    ([123; 115; 116; 97; 114; 116; 95; 108; 105; 110; 101; 125; 123; 115; 116; 97; 114; 116; 95; 99; 111; 108; 33; 122; 125], Err ValueError);
    ([123; 115; 116; 97; 114; 116; 95; 99; 111; 108; 58; 125; 123; 112; 97; 116; 104; 125; 93; 123; 112; 97; 116; 104; 123; 115; 116; 97; 114; 116; 95; 108; 105; 110; 101; 123], Err ValueError);
    ([123; 123; 115; 116; 97; 114; 116; 95; 99; 111; 108; 33; 115; 125], Err ValueError);
    ([123; 112; 97; 116; 104; 125; 58; 32; 123; 112; 97; 116; 104; 125], Ok [97; 47; 98; 46; 112; 121; 58; 32; 97; 47; 98; 46; 112; 121]);
    ([123; 109; 101; 115; 115; 97; 103; 101; 125; 123; 123; 91], Ok [85; 115; 101; 32; 123; 120; 125; 32; 40; 104; 97; 115; 32; 97; 117; 116; 111; 102; 105; 120; 41; 123; 91]) ].

Example format0_conforms : forallb (fun c => agrees (snd c) (format0 (fst c))) format0_cases = true.
Proof. vm_compute. reflexivity. Qed.
Example format0_compared : Nat.leb 938 (List.length (filter (fun c => compared (format0 (fst c))) format0_cases)) = true.
Proof. vm_compute. reflexivity. Qed.

Definition format1 (t : str) : res str := build nothing_else 2 (variables nothing_else [] [47] (Result [] None None) [] (0)%Z (-3)%Z) t.
Definition format1_cases : list (str * res str) :=
  [ ([], Ok []);
    ([123], Err ValueError);
    ([125], Err ValueError);
    ([58], Ok [58]);
    ([33], Ok [33]);
    ([123; 123], Ok [123]);
    ([123; 125], Err IndexError);
    ([123; 58], Err ValueError);
    ([123; 33], Err ValueError);
    ([125; 123], Err ValueError);
    ([125; 125], Ok [125]);
    ([125; 58], Err ValueError);
    ([125; 33], Err ValueError);
    ([58; 123], Err ValueError);
    ([58; 125], Err ValueError);
    ([58; 58], Ok [58; 58]);
    ([58; 33], Ok [58; 33]);
    ([33; 123], Err ValueError);
    ([33; 125], Err ValueError);
    ([33; 58], Ok [33; 58]);
    ([33; 33], Ok [33; 33]);
    ([123; 123; 123], Err ValueError);
    ([123; 123; 125], Err ValueError);
    ([123; 123; 58], Ok [123; 58]);
    ([123; 123; 33], Ok [123; 33]);
    ([123; 125; 123], Err IndexError);
    ([123; 125; 125], Err IndexError);
    ([123; 125; 58], Err IndexError);
    ([123; 125; 33], Err IndexError);
    ([123; 58; 123], Err ValueError);
    ([123; 58; 125], Err IndexError);
    ([123; 58; 58], Err ValueError);
    ([123; 58; 33], Err ValueError);
    ([123; 33; 123], Err ValueError);
    ([123; 33; 125], Err ValueError);
    ([123; 33; 58], Err ValueError);
    ([123; 33; 33], Err ValueError);
    ([125; 123; 123], Err ValueError);
    ([125; 123; 125], Err ValueError);
    ([125; 123; 58], Err ValueError);
    ([125; 123; 33], Err ValueError);
    ([125; 125; 123], Err ValueError);
    ([125; 125; 125], Err ValueError);
    ([125; 125; 58], Ok [125; 58]);
    ([125; 125; 33], Ok [125; 33]);
    ([125; 58; 123], Err ValueError);
    ([125; 58; 125], Err ValueError);
    ([125; 58; 58], Err ValueError);
    ([125; 58; 33], Err ValueError);
    ([125; 33; 123], Err ValueError);
    ([125; 33; 125], Err ValueError);
    ([125; 33; 58], Err ValueError);
    ([125; 33; 33], Err ValueError);
    ([58; 123; 123], Ok [58; 123]);
    ([58; 123; 125], Err IndexError);
    ([58; 123; 58], Err ValueError);
    ([58; 123; 33], Err ValueError);
    ([58; 125; 123], Err ValueError);
    ([58; 125; 125], Ok [58; 125]);
    ([58; 125; 58], Err ValueError);
    ([58; 125; 33], Err ValueError);
    ([58; 58; 123], Err ValueError);
    ([58; 58; 125], Err ValueError);
    ([58; 58; 58], Ok [58; 58; 58]);
    ([58; 58; 33], Ok [58; 58; 33]);
    ([58; 33; 123], Err ValueError);
    ([58; 33; 125], Err ValueError);
    ([58; 33; 58], Ok [58; 33; 58]);
    ([58; 33; 33], Ok [58; 33; 33]);
    ([33; 123; 123], Ok [33; 123]);
    ([33; 123; 125], Err IndexError);
    ([33; 123; 58], Err ValueError);
    ([33; 123; 33], Err ValueError);
    ([33; 125; 123], Err ValueError);
    ([33; 125; 125], Ok [33; 125]);
    ([33; 125; 58], Err ValueError);
    ([33; 125; 33], Err ValueError);
    ([33; 58; 123], Err ValueError);
    ([33; 58; 125], Err ValueError);
    ([33; 58; 58], Ok [33; 58; 58]);
    ([33; 58; 33], Ok [33; 58; 33]);
    ([33; 33; 123], Err ValueError);
    ([33; 33; 125], Err ValueError);
    ([33; 33; 58], Ok [33; 33; 58]);
    ([33; 33; 33], Ok [33; 33; 33]);
    ([123; 123; 123; 123], Ok [123; 123]);
    ([123; 123; 123; 125], Err IndexError);
    ([123; 123; 123; 58], Err ValueError);
    ([123; 123; 123; 33], Err ValueError);
    ([123; 123; 125; 123], Err ValueError);
    ([123; 123; 125; 125], Ok [123; 125]);
    ([123; 123; 125; 58], Err ValueError);
    ([123; 123; 125; 33], Err ValueError);
    ([123; 123; 58; 123], Err ValueError);
    ([123; 123; 58; 125], Err ValueError);
    ([123; 123; 58; 58], Ok [123; 58; 58]);
    ([123; 123; 58; 33], Ok [123; 58; 33]);
    ([123; 123; 33; 123], Err ValueError);
    ([123; 123; 33; 125], Err ValueError);
    ([123; 123; 33; 58], Ok [123; 33; 58]);
    ([123; 123; 33; 33], Ok [123; 33; 33]);
    ([123; 125; 123; 123], Err IndexError);
    ([123; 125; 123; 125], Err IndexError);
    ([123; 125; 123; 58], Err IndexError);
    ([123; 125; 123; 33], Err IndexError);
    ([123; 125; 125; 123], Err IndexError);
    ([123; 125; 125; 125], Err IndexError);
    ([123; 125; 125; 58], Err IndexError);
    ([123; 125; 125; 33], Err IndexError);
    ([123; 125; 58; 123], Err IndexError);
    ([123; 125; 58; 125], Err IndexError);
    ([123; 125; 58; 58], Err IndexError);
    ([123; 125; 58; 33], Err IndexError);
    ([123; 125; 33; 123], Err IndexError);
    ([123; 125; 33; 125], Err IndexError);
    ([123; 125; 33; 58], Err IndexError);
    ([123; 125; 33; 33], Err IndexError);
    ([123; 58; 123; 123], Err ValueError);
    ([123; 58; 123; 125], Err ValueError);
    ([123; 58; 123; 58], Err ValueError);
    ([123; 58; 123; 33], Err ValueError);
    ([123; 58; 125; 123], Err IndexError);
    ([123; 58; 125; 125], Err IndexError);
    ([123; 58; 125; 58], Err IndexError);
    ([123; 58; 125; 33], Err IndexError);
    ([123; 58; 58; 123], Err ValueError);
    ([123; 58; 58; 125], Err IndexError);
    ([123; 58; 58; 58], Err ValueError);
    ([123; 58; 58; 33], Err ValueError);
    ([123; 58; 33; 123], Err ValueError);
    ([123; 58; 33; 125], Err IndexError);
    ([123; 58; 33; 58], Err ValueError);
    ([123; 58; 33; 33], Err ValueError);
    ([123; 33; 123; 123], Err ValueError);
    ([123; 33; 123; 125], Err IndexError);
    ([123; 33; 123; 58], Err ValueError);
    ([123; 33; 123; 33], Err ValueError);
    ([123; 33; 125; 123], Err ValueError);
    ([123; 33; 125; 125], Err IndexError);
    ([123; 33; 125; 58], Err ValueError);
    ([123; 33; 125; 33], Err ValueError);
    ([123; 33; 58; 123], Err ValueError);
    ([123; 33; 58; 125], Err IndexError);
    ([123; 33; 58; 58], Err ValueError);
    ([123; 33; 58; 33], Err ValueError);
    ([123; 33; 33; 123], Err ValueError);
    ([123; 33; 33; 125], Err IndexError);
    ([123; 33; 33; 58], Err ValueError);
    ([123; 33; 33; 33], Err ValueError);
    ([125; 123; 123; 123], Err ValueError);
    ([125; 123; 123; 125], Err ValueError);
    ([125; 123; 123; 58], Err ValueError);
    ([125; 123; 123; 33], Err ValueError);
    ([125; 123; 125; 123], Err ValueError);
    ([125; 123; 125; 125], Err ValueError);
    ([125; 123; 125; 58], Err ValueError);
    ([125; 123; 125; 33], Err ValueError);
    ([125; 123; 58; 123], Err ValueError);
    ([125; 123; 58; 125], Err ValueError);
    ([125; 123; 58; 58], Err ValueError);
    ([125; 123; 58; 33], Err ValueError);
    ([125; 123; 33; 123], Err ValueError);
    ([125; 123; 33; 125], Err ValueError);
    ([125; 123; 33; 58], Err ValueError);
    ([125; 123; 33; 33], Err ValueError);
    ([125; 125; 123; 123], Ok [125; 123]);
    ([125; 125; 123; 125], Err IndexError);
    ([125; 125; 123; 58], Err ValueError);
    ([125; 125; 123; 33], Err ValueError);
    ([125; 125; 125; 123], Err ValueError);
    ([125; 125; 125; 125], Ok [125; 125]);
    ([125; 125; 125; 58], Err ValueError);
    ([125; 125; 125; 33], Err ValueError);
    ([125; 125; 58; 123], Err ValueError);
    ([125; 125; 58; 125], Err ValueError);
    ([125; 125; 58; 58], Ok [125; 58; 58]);
    ([125; 125; 58; 33], Ok [125; 58; 33]);
    ([125; 125; 33; 123], Err ValueError);
    ([125; 125; 33; 125], Err ValueError);
    ([125; 125; 33; 58], Ok [125; 33; 58]);
    ([125; 125; 33; 33], Ok [125; 33; 33]);
    ([125; 58; 123; 123], Err ValueError);
    ([125; 58; 123; 125], Err ValueError);
    ([125; 58; 123; 58], Err ValueError);
    ([125; 58; 123; 33], Err ValueError);
    ([125; 58; 125; 123], Err ValueError);
    ([125; 58; 125; 125], Err ValueError);
    ([125; 58; 125; 58], Err ValueError);
    ([125; 58; 125; 33], Err ValueError);
    ([125; 58; 58; 123], Err ValueError);
    ([125; 58; 58; 125], Err ValueError);
    ([125; 58; 58; 58], Err ValueError);
    ([125; 58; 58; 33], Err ValueError);
    ([125; 58; 33; 123], Err ValueError);
    ([125; 58; 33; 125], Err ValueError);
    ([125; 58; 33; 58], Err ValueError);
    ([125; 58; 33; 33], Err ValueError);
    ([125; 33; 123; 123], Err ValueError);
    ([125; 33; 123; 125], Err ValueError);
    ([125; 33; 123; 58], Err ValueError);
    ([125; 33; 123; 33], Err ValueError);
    ([125; 33; 125; 123], Err ValueError);
    ([125; 33; 125; 125], Err ValueError);
    ([125; 33; 125; 58], Err ValueError);
    ([125; 33; 125; 33], Err ValueError);
    ([125; 33; 58; 123], Err ValueError);
    ([125; 33; 58; 125], Err ValueError);
    ([125; 33; 58; 58], Err ValueError);
    ([125; 33; 58; 33], Err ValueError);
    ([125; 33; 33; 123], Err ValueError);
    ([125; 33; 33; 125], Err ValueError);
    ([125; 33; 33; 58], Err ValueError);
    ([125; 33; 33; 33], Err ValueError);
    ([58; 123; 123; 123], Err ValueError);
    ([58; 123; 123; 125], Err ValueError);
    ([58; 123; 123; 58], Ok [58; 123; 58]);
    ([58; 123; 123; 33], Ok [58; 123; 33]);
    ([58; 123; 125; 123], Err IndexError);
    ([58; 123; 125; 125], Err IndexError);
    ([58; 123; 125; 58], Err IndexError);
    ([58; 123; 125; 33], Err IndexError);
    ([58; 123; 58; 123], Err ValueError);
    ([58; 123; 58; 125], Err IndexError);
    ([58; 123; 58; 58], Err ValueError);
    ([58; 123; 58; 33], Err ValueError);
    ([58; 123; 33; 123], Err ValueError);
    ([58; 123; 33; 125], Err ValueError);
    ([58; 123; 33; 58], Err ValueError);
    ([58; 123; 33; 33], Err ValueError);
    ([58; 125; 123; 123], Err ValueError);
    ([58; 125; 123; 125], Err ValueError);
    ([58; 125; 123; 58], Err ValueError);
    ([58; 125; 123; 33], Err ValueError);
    ([58; 125; 125; 123], Err ValueError);
    ([58; 125; 125; 125], Err ValueError);
    ([58; 125; 125; 58], Ok [58; 125; 58]);
    ([58; 125; 125; 33], Ok [58; 125; 33]);
    ([58; 125; 58; 123], Err ValueError);
    ([58; 125; 58; 125], Err ValueError);
    ([58; 125; 58; 58], Err ValueError);
    ([58; 125; 58; 33], Err ValueError);
    ([58; 125; 33; 123], Err ValueError);
    ([58; 125; 33; 125], Err ValueError);
    ([58; 125; 33; 58], Err ValueError);
    ([58; 125; 33; 33], Err ValueError);
    ([58; 58; 123; 123], Ok [58; 58; 123]);
    ([58; 58; 123; 125], Err IndexError);
    ([58; 58; 123; 58], Err ValueError);
    ([58; 58; 123; 33], Err ValueError);
    ([58; 58; 125; 123], Err ValueError);
    ([58; 58; 125; 125], Ok [58; 58; 125]);
    ([58; 58; 125; 58], Err ValueError);
    ([58; 58; 125; 33], Err ValueError);
    ([58; 58; 58; 123], Err ValueError);
    ([58; 58; 58; 125], Err ValueError);
    ([58; 58; 58; 58], Ok [58; 58; 58; 58]);
    ([58; 58; 58; 33], Ok [58; 58; 58; 33]);
    ([58; 58; 33; 123], Err ValueError);
    ([58; 58; 33; 125], Err ValueError);
    ([58; 58; 33; 58], Ok [58; 58; 33; 58]);
    ([58; 58; 33; 33], Ok [58; 58; 33; 33]);
    ([58; 33; 123; 123], Ok [58; 33; 123]);
    ([58; 33; 123; 125], Err IndexError);
    ([58; 33; 123; 58], Err ValueError);
    ([58; 33; 123; 33], Err ValueError);
    ([58; 33; 125; 123], Err ValueError);
    ([58; 33; 125; 125], Ok [58; 33; 125]);
    ([58; 33; 125; 58], Err ValueError);
    ([58; 33; 125; 33], Err ValueError);
    ([58; 33; 58; 123], Err ValueError);
    ([58; 33; 58; 125], Err ValueError);
    ([58; 33; 58; 58], Ok [58; 33; 58; 58]);
    ([58; 33; 58; 33], Ok [58; 33; 58; 33]);
    ([58; 33; 33; 123], Err ValueError);
    ([58; 33; 33; 125], Err ValueError);
    ([58; 33; 33; 58], Ok [58; 33; 33; 58]);
    ([58; 33; 33; 33], Ok [58; 33; 33; 33]);
    ([33; 123; 123; 123], Err ValueError);
    ([33; 123; 123; 125], Err ValueError);
    ([33; 123; 123; 58], Ok [33; 123; 58]);
    ([33; 123; 123; 33], Ok [33; 123; 33]);
    ([33; 123; 125; 123], Err IndexError);
    ([33; 123; 125; 125], Err IndexError);
    ([33; 123; 125; 58], Err IndexError);
    ([33; 123; 125; 33], Err IndexError);
    ([33; 123; 58; 123], Err ValueError);
    ([33; 123; 58; 125], Err IndexError);
    ([33; 123; 58; 58], Err ValueError);
    ([33; 123; 58; 33], Err ValueError);
    ([33; 123; 33; 123], Err ValueError);
    ([33; 123; 33; 125], Err ValueError);
    ([33; 123; 33; 58], Err ValueError);
    ([33; 123; 33; 33], Err ValueError);
    ([33; 125; 123; 123], Err ValueError);
    ([33; 125; 123; 125], Err ValueError);
    ([33; 125; 123; 58], Err ValueError);
    ([33; 125; 123; 33], Err ValueError);
    ([33; 125; 125; 123], Err ValueError);
    ([33; 125; 125; 125], Err ValueError);
    ([33; 125; 125; 58], Ok [33; 125; 58]);
    ([33; 125; 125; 33], Ok [33; 125; 33]);
    ([33; 125; 58; 123], Err ValueError);
    ([33; 125; 58; 125], Err ValueError);
    ([33; 125; 58; 58], Err ValueError);
    ([33; 125; 58; 33], Err ValueError);
    ([33; 125; 33; 123], Err ValueError);
    ([33; 125; 33; 125], Err ValueError);
    ([33; 125; 33; 58], Err ValueError);
    ([33; 125; 33; 33], Err ValueError);
    ([33; 58; 123; 123], Ok [33; 58; 123]);
    ([33; 58; 123; 125], Err IndexError);
    ([33; 58; 123; 58], Err ValueError);
    ([33; 58; 123; 33], Err ValueError);
    ([33; 58; 125; 123], Err ValueError);
    ([33; 58; 125; 125], Ok [33; 58; 125]);
    ([33; 58; 125; 58], Err ValueError);
    ([33; 58; 125; 33], Err ValueError);
    ([33; 58; 58; 123], Err ValueError);
    ([33; 58; 58; 125], Err ValueError);
    ([33; 58; 58; 58], Ok [33; 58; 58; 58]);
    ([33; 58; 58; 33], Ok [33; 58; 58; 33]);
    ([33; 58; 33; 123], Err ValueError);
    ([33; 58; 33; 125], Err ValueError);
    ([33; 58; 33; 58], Ok [33; 58; 33; 58]);
    ([33; 58; 33; 33], Ok [33; 58; 33; 33]);
    ([33; 33; 123; 123], Ok [33; 33; 123]);
    ([33; 33; 123; 125], Err IndexError);
    ([33; 33; 123; 58], Err ValueError);
    ([33; 33; 123; 33], Err ValueError);
    ([33; 33; 125; 123], Err ValueError);
    ([33; 33; 125; 125], Ok [33; 33; 125]);
    ([33; 33; 125; 58], Err ValueError);
    ([33; 33; 125; 33], Err ValueError);
    ([33; 33; 58; 123], Err ValueError);
    ([33; 33; 58; 125], Err ValueError);
    ([33; 33; 58; 58], Ok [33; 33; 58; 58]);
    ([33; 33; 58; 33], Ok [33; 33; 58; 33]);
    ([33; 33; 33; 123], Err ValueError);
    ([33; 33; 33; 125], Err ValueError);
    ([33; 33; 33; 58], Ok [33; 33; 33; 58]);
    ([33; 33; 33; 33], Ok [33; 33; 33; 33]);
    ([91], Ok [91]);
    ([97], Ok [97]);
    ([123; 91], Err ValueError);
    ([123; 97], Err ValueError);
    ([125; 91], Err ValueError);
    ([125; 97], Err ValueError);
    ([91; 123], Err ValueError);
    ([91; 125], Err ValueError);
    ([91; 91], Ok [91; 91]);
    ([91; 97], Ok [91; 97]);
    ([97; 123], Err ValueError);
    ([97; 125], Err ValueError);
    ([97; 91], Ok [97; 91]);
    ([97; 97], Ok [97; 97]);
    ([123; 123; 91], Ok [123; 91]);
    ([123; 123; 97], Ok [123; 97]);
    ([123; 125; 91], Err IndexError);
    ([123; 125; 97], Err IndexError);
    ([123; 91; 123], Err ValueError);
    ([123; 91; 125], Err ValueError);
    ([123; 91; 91], Err ValueError);
    ([123; 91; 97], Err ValueError);
    ([123; 97; 123], Err ValueError);
    ([123; 97; 125], Err KeyError);
    ([123; 97; 91], Err ValueError);
    ([123; 97; 97], Err ValueError);
    ([125; 123; 91], Err ValueError);
    ([125; 123; 97], Err ValueError);
    ([125; 125; 91], Ok [125; 91]);
    ([125; 125; 97], Ok [125; 97]);
    ([125; 91; 123], Err ValueError);
    ([125; 91; 125], Err ValueError);
    ([125; 91; 91], Err ValueError);
    ([125; 91; 97], Err ValueError);
    ([125; 97; 123], Err ValueError);
    ([125; 97; 125], Err ValueError);
    ([125; 97; 91], Err ValueError);
    ([125; 97; 97], Err ValueError);
    ([91; 123; 123], Ok [91; 123]);
    ([91; 123; 125], Err IndexError);
    ([91; 123; 91], Err ValueError);
    ([91; 123; 97], Err ValueError);
    ([91; 125; 123], Err ValueError);
    ([91; 125; 125], Ok [91; 125]);
    ([91; 125; 91], Err ValueError);
    ([91; 125; 97], Err ValueError);
    ([91; 91; 123], Err ValueError);
    ([91; 91; 125], Err ValueError);
    ([91; 91; 91], Ok [91; 91; 91]);
    ([91; 91; 97], Ok [91; 91; 97]);
    ([91; 97; 123], Err ValueError);
    ([91; 97; 125], Err ValueError);
    ([91; 97; 91], Ok [91; 97; 91]);
    ([91; 97; 97], Ok [91; 97; 97]);
    ([97; 123; 123], Ok [97; 123]);
    ([97; 123; 125], Err IndexError);
    ([97; 123; 91], Err ValueError);
    ([97; 123; 97], Err ValueError);
    ([97; 125; 123], Err ValueError);
    ([97; 125; 125], Ok [97; 125]);
    ([97; 125; 91], Err ValueError);
    ([97; 125; 97], Err ValueError);
    ([97; 91; 123], Err ValueError);
    ([97; 91; 125], Err ValueError);
    ([97; 91; 91], Ok [97; 91; 91]);
    ([97; 91; 97], Ok [97; 91; 97]);
    ([97; 97; 123], Err ValueError);
    ([97; 97; 125], Err ValueError);
    ([97; 97; 91], Ok [97; 97; 91]);
    ([97; 97; 97], Ok [97; 97; 97]);
    ([123; 112; 97; 116; 104; 125; 64; 123; 115; 116; 97; 114; 116; 95; 108; 105; 110; 101; 125; 58; 123; 115; 116; 97; 114; 116; 95; 99; 111; 108; 125; 32; 123; 114; 117; 108; 101; 95; 110; 97; 109; 101; 125; 58; 32; 123; 109; 101; 115; 115; 97; 103; 101; 125], Ok [47; 64; 45; 51; 58; 48; 32; 58; 32]);
    ([123; 112; 97; 116; 104; 125; 58; 123; 115; 116; 97; 114; 116; 95; 108; 105; 110; 101; 125; 58; 123; 115; 116; 97; 114; 116; 95; 99; 111; 108; 125; 32; 123; 114; 117; 108; 101; 95; 110; 97; 109; 101; 125; 58; 32; 123; 109; 101; 115; 115; 97; 103; 101; 125], Ok [47; 58; 45; 51; 58; 48; 32; 58; 32]);
    ([123; 109; 101; 115; 115; 97; 103; 101; 58; 123; 109; 101; 115; 115; 97; 103; 101; 125; 125], Ok []);
    ([123; 109; 101; 115; 115; 97; 103; 101; 58; 123; 123; 125; 125; 125], Err ValueError);
    ([123; 109; 101; 115; 115; 97; 103; 101; 58; 123; 112; 97; 116; 104; 58; 123; 114; 117; 108; 101; 95; 110; 97; 109; 101; 125; 125; 125], Err ValueError);
    ([123; 109; 101; 115; 115; 97; 103; 101; 33; 115; 58; 125], Ok []);
    ([123; 112; 97; 116; 104; 33; 115; 125], Ok [47]);
    ([123; 49; 50; 125], Err IndexError);
    ([123; 48; 125; 123], Err IndexError);
    ([123; 109; 101; 115; 115; 97; 103; 101; 125; 123], Err ValueError);
    ([123; 110; 111; 112; 101; 125; 125], Err KeyError);
    ([123; 109; 101; 115; 115; 97; 103; 101; 91; 125; 93; 125], Err TypeError);
    ([123; 109; 101; 115; 115; 97; 103; 101; 91; 123; 93; 125], Err TypeError);
    ([123; 115; 116; 97; 114; 116; 95; 99; 111; 108; 58; 123; 115; 116; 97; 114; 116; 95; 108; 105; 110; 101; 125; 125], Ok [32; 32; 48]);
    ([123; 109; 101; 115; 115; 97; 103; 101; 33; 125; 125], Err ValueError);
    ([123; 109; 101; 115; 115; 97; 103; 101; 33; 58; 125], Err ValueError);
    ([123; 109; 101; 115; 115; 97; 103; 101; 33; 33; 125], Err ValueError);
    ([123; 109; 101; 115; 115; 97; 103; 101; 33; 115], Err ValueError);
    ([97; 33; 115; 123; 77; 101; 115; 115; 97; 103; 101; 125; 123; 115; 116; 97; 114; 116; 95; 108; 105; 110; 101; 125], Err KeyError);
    ([48; 123; 115; 116; 97; 114; 116; 95; 99; 111; 108; 125; 123; 109; 101; 115; 115; 97; 103; 101; 125; 123; 109; 101; 115; 115; 97; 103; 101], Err ValueError);
    ([33; 115; 91; 91; 123; 115; 116; 97; 114; 116; 95; 108; 105; 110; 101; 125; 123; 109; 101; 115; 115; 97; 103; 101; 125], Ok [33; 115; 91; 91; 45; 51]);
    ([91; 123; 115; 116; 97; 114; 116; 95; 99; 111; 108; 125], Ok [91; 48]);
    ([123; 112; 97; 116; 104; 33; 125; 123; 114; 117; 108; 101; 95; 110; 97; 109; 101; 125; 123; 110; 111; 112; 101; 125], Err ValueError);
    ([115; 32; 46; 123; 112; 97; 116; 104; 125], Ok [115; 32; 46; 47]);
    ([123; 109; 101; 115; 115; 97; 103; 101; 125; 123; 109; 101; 115; 115; 97; 103; 101; 123; 114; 117; 108; 101; 95; 110; 97; 109; 101; 33; 122; 125; 123; 109; 101; 115; 115; 97; 103; 101; 125; 123], Err ValueError);
    ([123; 109; 101; 115; 115; 97; 103; 101; 125; 123; 55; 97; 125], Err KeyError);
    ([123; 112; 97; 116; 104; 125; 33; 123; 114; 117; 108; 101; 95; 110; 97; 109; 101; 125; 123; 115; 116; 97; 114; 116; 95; 99; 111; 108; 125], Ok [47; 33; 48]);
    ([123; 109; 101; 115; 115; 97; 103; 101; 125], Ok []);
    ([123; 115; 116; 97; 114; 116; 95; 99; 111; 108; 125], Ok [48]);
    ([125; 125; 123; 112; 97; 116; 104; 33; 115; 32; 125], Err ValueError);
    ([123; 115; 116; 97; 114; 116; 95; 99; 111; 108; 58; 125; 123; 112; 97; 116; 104; 58; 125], Ok [48; 47]);
    ([48; 123; 109; 101; 115; 115; 97; 103; 101; 123; 115; 116; 97; 114; 116; 95; 99; 111; 108; 125], Err ValueError);
    ([125; 123; 112; 97; 116; 104; 125; 123; 114; 117; 108; 101; 95; 110; 97; 109; 101; 125; 123; 115; 116; 97; 114; 116; 95; 108; 105; 110; 101; 125; 123; 114; 117; 108; 101; 95; 110; 97; 109; 101; 125], Err ValueError);
    ([123; 109; 101; 115; 115; 97; 103; 101; 125; 123; 112; 97; 116; 104; 125; 123; 114; 117; 108; 101; 95; 110; 97; 109; 101; 125; 123; 115; 116; 97; 114; 116; 95; 99; 111; 108; 33; 115; 125], Ok [47; 48]);
    ([123; 77; 101; 115; 115; 97; 103; 101; 125; 123; 115; 116; 97; 114; 116; 95; 99; 111; 108; 125; 123; 112; 97; 116; 104; 125; 123; 112; 97; 116; 104; 125; 125; 125], Err KeyError);
    ([123; 115; 116; 97; 114; 116; 95; 108; 105; 110; 101; 125; 123; 115; 116; 97; 114; 116; 95; 99; 111; 108; 125; 91; 123; 109; 101; 115; 115; 97; 103; 101; 125; 123; 109; 101; 115; 115; 97; 103; 101; 125; 123; 114; 117; 108; 101; 95; 110; 97; 109; 101], Err ValueError);
    ([115; 123; 115; 116; 97; 114; 116; 95; 108; 105; 110; 101; 125], Ok [115; 45; 51]);
    ([123; 112; 97; 116; 104; 125; 125; 123; 115; 116; 97; 114; 116; 95; 99; 111; 108; 125; 123; 115; 116; 97; 114; 116; 95; 108; 105; 110; 101], Err ValueError);
    ([123; 112; 97; 116; 104; 125; 125; 125; 125; 123; 115; 116; 97; 114; 116; 95; 99; 111; 108; 125; 123; 109; 101; 115; 115; 97; 103; 101; 125], Err ValueError);
    ([123; 115; 116; 97; 114; 116; 95; 108; 105; 110; 101; 125; 123; 112; 97; 116; 104], Err ValueError);
    ([123; 115; 116; 97; 114; 116; 95; 99; 111; 108; 33; 115; 58; 125], Ok [48]);
    ([33; 122; 123; 112; 97; 116; 104; 123; 109; 101; 115; 115; 97; 103; 101; 123; 48; 125; 123; 123; 109; 101; 115; 115; 97; 103; 101; 125], Err ValueError);
    ([123; 114; 117; 108; 101; 95; 110; 97; 109; 101; 125; 123; 109; 101; 115; 115; 97; 103; 101; 125; 123; 115; 116; 97; 114; 116; 95; 108; 105; 110; 101; 125; 123; 109; 101; 115; 115; 97; 103; 101; 33; 115; 32; 125], Err ValueError);
    ([48; 58; 123; 115; 116; 97; 114; 116; 95; 99; 111; 108; 58; 125; 115; 123; 91], Err ValueError);
    ([115], Ok [115]);
    ([123; 115; 116; 97; 114; 116; 95; 108; 105; 110; 101; 123; 109; 101; 115; 115; 97; 103; 101; 125; 33; 46], Err ValueError);
    ([123; 115; 116; 97; 114; 116; 95; 108; 105; 110; 101; 33; 122; 125; 123; 115; 116; 97; 114; 116; 95; 108; 105; 110; 101; 58; 125; 123; 115; 116; 97; 114; 116; 95; 108; 105; 110; 101], Err ValueError);
    ([123; 109; 101; 115; 115; 97; 103; 101; 125; 123; 77; 101; 115; 115; 97; 103; 101; 125; 33; 115; 123; 109; 101; 115; 115; 97; 103; 101; 125], Err KeyError);
    ([123; 115; 116; 97; 114; 116; 95; 108; 105; 110; 101; 125; 123; 112; 97; 116; 104; 125; 58], Ok [45; 51; 47; 58]);
    ([33; 115; 58; 123; 114; 117; 108; 101; 95; 110; 97; 109; 101; 33; 115; 125; 48; 32; 123; 112; 97; 116; 104; 125], Ok [33; 115; 58; 48; 32; 47]);
    ([123; 114; 117; 108; 101; 95; 110; 97; 109; 101; 125; 123; 112; 97; 116; 104; 125; 123; 110; 111; 112; 101; 125; 33], Err KeyError);
    ([123; 115; 116; 97; 114; 116; 95; 99; 111; 108; 125; 123; 112; 97; 116; 104; 125], Ok [48; 47]);
    ([123; 115; 116; 97; 114; 116; 95; 108; 105; 110; 101; 33; 122; 125; 46; 91; 123; 110; 111; 112; 101; 125], Err ValueError);
    ([123; 115; 116; 97; 114; 116; 95; 108; 105; 110; 101; 125], Ok [45; 51]);
    ([123; 115; 116; 97; 114; 116; 95; 108; 105; 110; 101; 58; 125; 115; 123; 110; 111; 112; 101; 125; 33; 123; 112; 97; 116; 104; 125], Err KeyError);
    ([123; 115; 116; 97; 114; 116; 95; 108; 105; 110; 101; 125; 48; 123; 109; 101; 115; 115; 97; 103; 101; 33; 115; 32; 125; 123; 115; 116; 97; 114; 116; 95; 99; 111; 108; 125], Err ValueError);
    ([123; 109; 101; 115; 115; 97; 103; 101; 125; 33; 122; 123; 123], Ok [33; 122; 123]);
    ([123; 114; 117; 108; 101; 95; 110; 97; 109; 101; 125; 123; 115; 116; 97; 114; 116; 95; 108; 105; 110; 101], Err ValueError);
    ([48; 123; 112; 97; 116; 104; 125; 123; 115; 116; 97; 114; 116; 95; 99; 111; 108; 125; 123; 115; 116; 97; 114; 116; 95; 99; 111; 108; 125; 123; 109; 101; 115; 115; 97; 103; 101; 125], Ok [48; 47; 48; 48]);
    ([123; 115; 116; 97; 114; 116; 95; 108; 105; 110; 101; 58; 123; 125; 123; 109; 101; 115; 115; 97; 103; 101; 125], Err ValueError);
    ([123; 115; 116; 97; 114; 116; 95; 99; 111; 108; 125; 33], Ok [48; 33]);
    ([32; 123; 109; 101; 115; 115; 97; 103; 101; 125; 123; 109; 101; 115; 115; 97; 103; 101; 125; 123; 114; 117; 108; 101; 95; 110; 97; 109; 101; 125; 123; 114; 117; 108; 101; 95; 110; 97; 109; 101], Err ValueError);
    ([125; 125; 125; 123; 109; 101; 115; 115; 97; 103; 101; 33; 115; 125; 123; 112; 97; 116; 104], Err ValueError);
    ([123; 115; 116; 97; 114; 116; 95; 108; 105; 110; 101; 125; 33; 122; 46; 123; 115; 116; 97; 114; 116; 95; 99; 111; 108; 33; 125], Err ValueError);
    ([123; 112; 97; 116; 104; 125; 123; 115; 116; 97; 114; 116; 95; 108; 105; 110; 101; 33; 115; 58; 125; 33; 122; 33; 122; 123; 115; 116; 97; 114; 116; 95; 108; 105; 110; 101; 123; 115; 116; 97; 114; 116; 95; 99; 111; 108; 125], Err ValueError);
    ([123; 112; 97; 116; 104; 125; 33; 122; 123; 115; 116; 97; 114; 116; 95; 99; 111; 108; 125; 123; 115; 116; 97; 114; 116; 95; 108; 105; 110; 101; 125; 123; 109; 101; 115; 115; 97; 103; 101; 125], Ok [47; 33; 122; 48; 45; 51]);
    ([123; 115; 116; 97; 114; 116; 95; 108; 105; 110; 101; 58; 125; 123; 115; 116; 97; 114; 116; 95; 99; 111; 108; 123; 115; 116; 97; 114; 116; 95; 108; 105; 110; 101; 123; 109; 101; 115; 115; 97; 103; 101; 125; 125], Err ValueError);
    ([123; 55; 97; 125; 123; 115; 116; 97; 114; 116; 95; 99; 111; 108; 125; 123; 48; 125; 123; 115; 116; 97; 114; 116; 95; 99; 111; 108; 33; 125; 123; 112; 97; 116; 104; 125], Err KeyError);
    ([32; 123; 109; 101; 115; 115; 97; 103; 101; 125; 123; 112; 97; 116; 104; 125; 123; 114; 117; 108; 101; 95; 110; 97; 109; 101; 125], Ok [32; 47]);
    ([125; 125; 125; 123; 77; 101; 115; 115; 97; 103; 101; 125], Err ValueError);
    ([46; 123; 115; 116; 97; 114; 116; 95; 99; 111; 108; 123; 115; 116; 97; 114; 116; 95; 99; 111; 108; 125], Err ValueError);
    ([33; 122; 123; 115; 116; 97; 114; 116; 95; 108; 105; 110; 101; 125; 33; 122; 123; 115; 116; 97; 114; 116; 95; 108; 105; 110; 101; 125; 97], Ok [33; 122; 45; 51; 33; 122; 45; 51; 97]);
    ([123; 114; 117; 108; 101; 95; 110; 97; 109; 101; 125; 58], Ok [58]);
    ([123; 112; 97; 116; 104; 125; 123; 112; 97; 116; 104; 125; 123; 123; 123; 123; 33], Ok [47; 47; 123; 123; 33]);
    ([123; 115; 116; 97; 114; 116; 95; 99; 111; 108; 125; 123; 112; 97; 116; 104; 123; 109; 101; 115; 115; 97; 103; 101; 125; 123; 115; 116; 97; 114; 116; 95; 108; 105; 110; 101; 125], Err ValueError);
    ([123; 114; 117; 108; 101; 95; 110; 97; 109; 101; 58; 125; 93; 33; 122; 97; 123; 109; 101; 115; 115; 97; 103; 101; 125; 123; 110; 111; 112; 101; 125], Err KeyError);
    ([33; 115; 123; 112; 97; 116; 104; 125; 123; 112; 97; 116; 104; 125; 33; 125], Err ValueError);
    ([123; 115; 116; 97; 114; 116; 95; 99; 111; 108; 125; 123; 109; 101; 115; 115; 97; 103; 101; 125; 123; 115; 116; 97; 114; 116; 95; 99; 111; 108; 125; 123; 114; 117; 108; 101; 95; 110; 97; 109; 101; 33; 122; 125; 123; 114; 117; 108; 101; 95; 110; 97; 109; 101; 125], Err ValueError);
    ([123; 115; 116; 97; 114; 116; 95; 99; 111; 108; 125; 123; 114; 117; 108; 101; 95; 110; 97; 109; 101; 33; 122; 125], Err ValueError);
    ([125; 123; 109; 101; 115; 115; 97; 103; 101], Err ValueError);
    ([48; 32; 93], Ok [48; 32; 93]);
    ([123; 112; 97; 116; 104; 123; 114; 117; 108; 101; 95; 110; 97; 109; 101; 33; 123; 109; 101; 115; 115; 97; 103; 101; 125], Err ValueError);
    ([123; 123; 115; 123; 114; 117; 108; 101; 95; 110; 97; 109; 101; 125; 46; 123; 115; 116; 97; 114; 116; 95; 99; 111; 108; 33; 115; 125; 123; 112; 97; 116; 104; 58; 125], Ok [123; 115; 46; 48; 47]);
    ([123; 109; 101; 115; 115; 97; 103; 101; 125; 123; 114; 117; 108; 101; 95; 110; 97; 109; 101; 125; 32], Ok [32]);
    ([123; 114; 117; 108; 101; 95; 110; 97; 109; 101; 125; 93; 123; 112; 97; 116; 104; 125; 91; 123; 109; 101; 115; 115; 97; 103; 101; 125], Ok [93; 47; 91]);
    ([123; 115; 116; 97; 114; 116; 95; 99; 111; 108; 46; 123; 115; 116; 97; 114; 116; 95; 99; 111; 108; 125; 123], Err ValueError);
    ([46], Ok [46]);
    ([123; 115; 116; 97; 114; 116; 95; 99; 111; 108; 125; 123; 112; 97; 116; 104], Err ValueError);
    ([123; 109; 101; 115; 115; 97; 103; 101; 33; 115; 58; 125; 123; 114; 117; 108; 101; 95; 110; 97; 109; 101; 125; 123; 115; 116; 97; 114; 116; 95; 108; 105; 110; 101; 123; 115; 116; 97; 114; 116; 95; 108; 105; 110; 101; 33; 125; 125; 48], Err ValueError);
    ([123; 115; 116; 97; 114; 116; 95; 108; 105; 110; 101; 125; 123; 123; 112; 97; 116; 104; 33; 122; 125; 123; 125; 33; 122; 123], Err ValueError);
    ([115; 123; 115; 116; 97; 114; 116; 95; 99; 111; 108; 125; 123; 114; 117; 108; 101; 95; 110; 97; 109; 101; 123; 115; 116; 97; 114; 116; 95; 99; 111; 108], Err ValueError);
    ([123; 114; 117; 108; 101; 95; 110; 97; 109; 101; 125; 46; 123; 109; 101; 115; 115; 97; 103; 101; 125; 91; 123; 112; 97; 116; 104; 125; 123; 115; 116; 97; 114; 116; 95; 99; 111; 108; 58; 125], Ok [46; 91; 47; 48]);
    ([123; 123; 114; 117; 108; 101; 95; 110; 97; 109; 101; 123; 112; 97; 116; 104; 125], Ok [123; 114; 117; 108; 101; 95; 110; 97; 109; 101; 47]);
    ([33; 125; 125; 123; 109; 101; 115; 115; 97; 103; 101; 125; 46], Ok [33; 125; 46]);
    ([123; 112; 97; 116; 104; 125; 125; 123; 115; 116; 97; 114; 116; 95; 99; 111; 108; 125; 123; 125], Err ValueError);
    ([123; 112; 97; 116; 104; 58; 125], Ok [47]);
    ([123; 115; 116; 97; 114; 116; 95; 99; 111; 108; 33; 122; 125; 93; 123; 115; 116; 97; 114; 116; 95; 99; 111; 108], Err ValueError);
    ([33; 122; 123; 123; 46], Ok [33; 122; 123; 46]);
    ([123; 109; 101; 115; 115; 97; 103; 101; 125; 123; 114; 117; 108; 101; 95; 110; 97; 109; 101], Err ValueError);
    ([58; 123; 115; 116; 97; 114; 116; 95; 108; 105; 110; 101; 125; 91; 125; 125; 48], Ok [58; 45; 51; 91; 125; 48]);
    ([123; 112; 97; 116; 104; 125; 123; 112; 97; 116; 104], Err ValueError);
    ([123; 109; 101; 115; 115; 97; 103; 101; 125; 123; 114; 117; 108; 101; 95; 110; 97; 109; 101; 125; 123; 115; 116; 97; 114; 116; 95; 108; 105; 110; 101; 58; 125; 123; 115; 116; 97; 114; 116; 95; 108; 105; 110; 101; 125; 123; 109; 101; 115; 115; 97; 103; 101; 125; 123; 123], Ok [45; 51; 45; 51; 123]);
    ([123; 114; 117; 108; 101; 95; 110; 97; 109; 101; 125; 123; 48; 125; 123; 114; 117; 108; 101; 95; 110; 97; 109; 101; 125; 123; 125; 125], Err IndexError);
    ([123; 115; 116; 97; 114; 116; 95; 108; 105; 110; 101; 33; 115; 125], Ok [45; 51]);
    ([123; 114; 117; 108; 101; 95; 110; 97; 109; 101; 33; 122; 125; 58; 123; 115; 116; 97; 114; 116; 95; 108; 105; 110; 101; 125; 123; 115; 116; 97; 114; 116; 95; 108; 105; 110; 101; 125], Err ValueError);
    ([123; 123; 123; 114; 117; 108; 101; 95; 110; 97; 109; 101; 33; 125; 123; 114; 117; 108; 101; 95; 110; 97; 109; 101; 125; 123; 109; 101; 115; 115; 97; 103; 101; 125; 123; 115; 116; 97; 114; 116; 95; 108; 105; 110; 101; 33; 122; 125; 33; 115], Err ValueError);
    ([123; 123; 112; 97; 116; 104; 125; 91], Err ValueError);
    ([33; 115], Ok [33; 115]);
    ([58; 123; 112; 97; 116; 104; 125; 123; 114; 117; 108; 101; 95; 110; 97; 109; 101; 125; 123; 109; 101; 115; 115; 97; 103; 101; 33; 115; 58; 125; 91; 123; 114; 117; 108; 101; 95; 110; 97; 109; 101], Err ValueError);
    ([123; 114; 117; 108; 101; 95; 110; 97; 109; 101; 123; 125; 123; 115; 116; 97; 114; 116; 95; 108; 105; 110; 101; 33; 115; 125; 123; 114; 117; 108; 101; 95; 110; 97; 109; 101; 125], Err ValueError);
    ([123; 115; 116; 97; 114; 116; 95; 99; 111; 108; 33; 125], Err ValueError);
    ([46; 123; 115; 116; 97; 114; 116; 95; 99; 111; 108; 123; 115; 116; 97; 114; 116; 95; 108; 105; 110; 101; 123; 112; 97; 116; 104], Err ValueError);
    ([32], Ok [32]);
    ([125; 125; 123; 115; 116; 97; 114; 116; 95; 108; 105; 110; 101; 123; 114; 117; 108; 101; 95; 110; 97; 109; 101; 125], Err ValueError);
    ([48], Ok [48]);
    ([123; 115; 116; 97; 114; 116; 95; 108; 105; 110; 101; 125; 123; 115; 116; 97; 114; 116; 95; 108; 105; 110; 101; 125; 123; 109; 101; 115; 115; 97; 103; 101; 125; 123; 109; 101; 115; 115; 97; 103; 101; 125], Ok [45; 51; 45; 51]);
    ([123; 112; 97; 116; 104; 125; 123; 115; 116; 97; 114; 116; 95; 99; 111; 108; 125; 123; 112; 97; 116; 104; 125], Ok [47; 48; 47]);
    ([33; 122; 123; 115; 116; 97; 114; 116; 95; 99; 111; 108; 125; 123; 114; 117; 108; 101; 95; 110; 97; 109; 101; 33; 115; 58; 125; 33; 115], Ok [33; 122; 48; 33; 115]);
    ([123; 109; 101; 115; 115; 97; 103; 101; 32; 123; 114; 117; 108; 101; 95; 110; 97; 109; 101; 125; 48], Err ValueError);
    ([32; 123; 77; 101; 115; 115; 97; 103; 101; 125; 33; 122; 123; 109; 101; 115; 115; 97; 103; 101; 58; 125], Err KeyError);
    ([32; 123; 112; 97; 116; 104; 125; 115; 58], Ok [32; 47; 115; 58]);
    ([123; 115; 116; 97; 114; 116; 95; 108; 105; 110; 101; 33; 115; 58; 125; 123; 109; 101; 115; 115; 97; 103; 101; 125], Ok [45; 51]);
    ([123; 109; 101; 115; 115; 97; 103; 101; 125; 123; 112; 97; 116; 104; 125; 123; 123; 48], Ok [47; 123; 48]);
    ([123; 115; 116; 97; 114; 116; 95; 99; 111; 108; 125; 123; 123; 112; 97; 116; 104; 125; 123; 112; 97; 116; 104; 125], Err ValueError);
    ([123; 115; 116; 97; 114; 116; 95; 99; 111; 108; 125; 123; 112; 97; 116; 104; 123; 114; 117; 108; 101; 95; 110; 97; 109; 101; 33; 122; 125; 123; 114; 117; 108; 101; 95; 110; 97; 109; 101; 125; 97], Err ValueError);
    ([123; 48; 125; 123; 55; 97; 125; 58; 48; 33; 115], Err IndexError);
    ([123; 112; 97; 116; 104; 33; 115; 125; 115], Ok [47; 115]);
    ([48; 123; 109; 101; 115; 115; 97; 103; 101; 125; 125; 125; 97; 123; 48; 125], Err IndexError);
    ([46; 123; 112; 97; 116; 104; 33; 122; 125; 123; 114; 117; 108; 101; 95; 110; 97; 109; 101; 125; 123; 115; 116; 97; 114; 116; 95; 108; 105; 110; 101; 125], Err ValueError);
    ([91; 123; 115; 116; 97; 114; 116; 95; 108; 105; 110; 101; 125], Ok [91; 45; 51]);
    ([123; 112; 97; 116; 104; 125], Ok [47]);
    ([123; 114; 117; 108; 101; 95; 110; 97; 109; 101; 125; 33; 122], Ok [33; 122]);
    ([123; 115; 116; 97; 114; 116; 95; 108; 105; 110; 101; 125; 123; 115; 116; 97; 114; 116; 95; 108; 105; 110; 101; 123; 112; 97; 116; 104; 125; 123; 109; 101; 115; 115; 97; 103; 101; 33; 122; 125], Err ValueError);
    ([123; 115; 116; 97; 114; 116; 95; 99; 111; 108; 125; 123; 114; 117; 108; 101; 95; 110; 97; 109; 101; 125; 93], Ok [48; 93]);
    ([123; 109; 101; 115; 115; 97; 103; 101; 125; 125; 93; 123; 110; 111; 112; 101; 125; 123; 46], Err ValueError);
    ([123; 48; 125; 123; 115; 116; 97; 114; 116; 95; 99; 111; 108; 97; 48; 32; 33], Err IndexError);
    ([123; 115; 116; 97; 114; 116; 95; 108; 105; 110; 101; 33; 115; 32; 125; 123; 114; 117; 108; 101; 95; 110; 97; 109; 101; 125; 33; 122; 33; 123; 115; 116; 97; 114; 116; 95; 99; 111; 108; 125; 58], Err ValueError);
    ([91; 123; 48; 125; 123; 115; 116; 97; 114; 116; 95; 99; 111; 108; 58; 125], Err IndexError);
    ([46; 123; 112; 97; 116; 104; 125], Ok [46; 47]);
    ([123; 115; 116; 97; 114; 116; 95; 99; 111; 108; 125; 123; 109; 101; 115; 115; 97; 103; 101; 123; 109; 101; 115; 115; 97; 103; 101; 125; 123; 109; 101; 115; 115; 97; 103; 101; 125], Err ValueError);
    ([123; 109; 101; 115; 115; 97; 103; 101; 33; 115; 58; 125; 115; 123; 123; 48], Ok [115; 123; 48]);
    ([115; 123; 55; 97; 125], Err KeyError);
    ([123; 115; 116; 97; 114; 116; 95; 99; 111; 108; 125; 58; 48; 123; 115; 116; 97; 114; 116; 95; 108; 105; 110; 101; 125; 123; 114; 117; 108; 101; 95; 110; 97; 109; 101], Err ValueError);
    ([123; 114; 117; 108; 101; 95; 110; 97; 109; 101; 125; 125; 123; 112; 97; 116; 104], Err ValueError);
    ([123; 114; 117; 108; 101; 95; 110; 97; 109; 101; 125; 91; 33; 32; 123; 112; 97; 116; 104; 125], Ok [91; 33; 32; 47]);
    ([33; 122; 123; 112; 97; 116; 104; 125; 33; 122], Ok [33; 122; 47; 33; 122]);
    ([32; 123; 109; 101; 115; 115; 97; 103; 101; 125; 125; 125; 123; 123; 123; 115; 116; 97; 114; 116; 95; 108; 105; 110; 101; 125; 123; 114; 117; 108; 101; 95; 110; 97; 109; 101; 33; 115; 58; 125], Ok [32; 125; 123; 45; 51]);
    ([123; 110; 111; 112; 101; 125; 123; 125; 123; 115; 116; 97; 114; 116; 95; 108; 105; 110; 101; 125], Err KeyError);
    ([123; 109; 101; 115; 115; 97; 103; 101; 123; 114; 117; 108; 101; 95; 110; 97; 109; 101; 123; 114; 117; 108; 101; 95; 110; 97; 109; 101; 125; 125; 123], Err ValueError);
    ([58; 123; 115; 116; 97; 114; 116; 95; 108; 105; 110; 101; 125; 123; 112; 97; 116; 104; 33; 115; 125], Ok [58; 45; 51; 47]);
    ([123; 109; 101; 115; 115; 97; 103; 101; 123; 55; 97; 125; 123; 112; 97; 116; 104; 125; 123; 115; 116; 97; 114; 116; 95; 99; 111; 108; 125; 93], Err ValueError);
    ([123; 115; 116; 97; 114; 116; 95; 108; 105; 110; 101; 125; 123; 115; 116; 97; 114; 116; 95; 108; 105; 110; 101; 33; 122; 125; 123; 115; 116; 97; 114; 116; 95; 108; 105; 110; 101; 125; 123; 112; 97; 116; 104; 125], Err ValueError);
    ([123; 123; 48; 123; 115; 116; 97; 114; 116; 95; 99; 111; 108; 125; 33; 115], Ok [123; 48; 48; 33; 115]);
    ([123; 115; 116; 97; 114; 116; 95; 108; 105; 110; 101; 33; 115; 32; 125; 123; 115; 116; 97; 114; 116; 95; 99; 111; 108; 33; 115], Err ValueError);
    ([97; 97; 123; 115; 116; 97; 114; 116; 95; 108; 105; 110; 101; 58; 125; 33; 122], Ok [97; 97; 45; 51; 33; 122]);
    ([123; 115; 116; 97; 114; 116; 95; 99; 111; 108; 123; 109; 101; 115; 115; 97; 103; 101; 33; 115; 58; 125; 33], Err ValueError);
    ([115; 91; 123; 114; 117; 108; 101; 95; 110; 97; 109; 101; 125; 32; 123; 109; 101; 115; 115; 97; 103; 101; 125; 125; 125], Ok [115; 91; 32; 125]);
    ([123; 123; 110; 111; 112; 101; 125; 123; 112; 97; 116; 104; 123; 115; 116; 97; 114; 116; 95; 99; 111; 108; 32], Err ValueError);
    ([123; 115; 116; 97; 114; 116; 95; 108; 105; 110; 101; 33; 122; 125; 123; 112; 97; 116; 104; 123; 115; 116; 97; 114; 116; 95; 99; 111; 108; 125; 123; 109; 101; 115; 115; 97; 103; 101; 123; 112; 97; 116; 104; 125; 123; 115; 116; 97; 114; 116; 95; 108; 105; 110; 101; 125], Err ValueError);
    ([123; 123; 114; 117; 108; 101; 95; 110; 97; 109; 101; 125; 123; 112; 97; 116; 104; 125; 123; 115; 116; 97; 114; 116; 95; 99; 111; 108; 125; 115], Err ValueError);
    ([123; 115; 116; 97; 114; 116; 95; 108; 105; 110; 101; 33; 115; 125; 123; 109; 101; 115; 115; 97; 103; 101; 125], Ok [45; 51]);
    ([33; 123; 112; 97; 116; 104; 125; 48; 123; 125], Err IndexError);
    ([123; 109; 101; 115; 115; 97; 103; 101; 125; 123; 114; 117; 108; 101; 95; 110; 97; 109; 101; 125], Ok []);
    ([123; 115; 116; 97; 114; 116; 95; 108; 105; 110; 101; 125; 123; 112; 97; 116; 104; 125; 123; 109; 101; 115; 115; 97; 103; 101; 125; 33], Ok [45; 51; 47; 33]);
    ([32; 123; 115; 116; 97; 114; 116; 95; 99; 111; 108; 125; 123; 123; 123; 115; 116; 97; 114; 116; 95; 99; 111; 108; 125; 123; 112; 97; 116; 104; 33; 115; 125; 125], Err ValueError);
    ([33; 123; 112; 97; 116; 104; 125; 123; 114; 117; 108; 101; 95; 110; 97; 109; 101; 58; 33; 122; 91], Err ValueError);
    ([123; 114; 117; 108; 101; 95; 110; 97; 109; 101; 125; 123; 123; 33; 123; 109; 101; 115; 115; 97; 103; 101; 125; 123; 110; 111; 112; 101; 125], Err KeyError);
    ([125; 123; 109; 101; 115; 115; 97; 103; 101; 123; 115; 116; 97; 114; 116; 95; 108; 105; 110; 101; 125; 123; 114; 117; 108; 101; 95; 110; 97; 109; 101; 125], Err ValueError);
    ([125; 123; 112; 97; 116; 104; 125; 123; 114; 117; 108; 101; 95; 110; 97; 109; 101; 125; 123], Err ValueError);
    ([123; 77; 101; 115; 115; 97; 103; 101; 125; 123; 115; 116; 97; 114; 116; 95; 99; 111; 108; 58; 125; 123; 115; 116; 97; 114; 116; 95; 108; 105; 110; 101; 125; 32; 123; 115; 116; 97; 114; 116; 95; 99; 111; 108; 58; 125], Err KeyError);
    ([123; 115; 116; 97; 114; 116; 95; 108; 105; 110; 101; 125; 33; 122; 123; 112; 97; 116; 104; 125; 123; 115; 116; 97; 114; 116; 95; 99; 111; 108; 125; 123; 115; 116; 97; 114; 116; 95; 99; 111; 108; 125], Ok [45; 51; 33; 122; 47; 48; 48]);
    ([48; 46; 123; 115; 116; 97; 114; 116; 95; 99; 111; 108; 125; 123; 115; 116; 97; 114; 116; 95; 108; 105; 110; 101; 33], Err ValueError);
    ([123; 112; 97; 116; 104; 33; 115; 58; 125; 123; 109; 101; 115; 115; 97; 103; 101; 125; 48; 123; 115; 116; 97; 114; 116; 95; 99; 111; 108; 33; 115; 32; 125; 123; 109; 101; 115; 115; 97; 103; 101; 125], Err ValueError);
    ([91; 125; 125; 123; 123; 109; 101; 115; 115; 97; 103; 101; 125; 97], Err ValueError);
    ([48; 123; 115; 116; 97; 114; 116; 95; 108; 105; 110; 101; 125; 123; 77; 101; 115; 115; 97; 103; 101; 125; 123; 114; 117; 108; 101; 95; 110; 97; 109; 101; 125; 123; 115; 116; 97; 114; 116; 95; 99; 111; 108; 125], Err KeyError);
    ([91; 123; 123; 115; 116; 97; 114; 116; 95; 99; 111; 108; 125; 123; 112; 97; 116; 104; 33; 115; 32; 125; 123; 123; 115; 116; 97; 114; 116; 95; 108; 105; 110; 101; 125], Err ValueError);
    ([123; 115; 116; 97; 114; 116; 95; 99; 111; 108; 125; 123; 109; 101; 115; 115; 97; 103; 101], Err ValueError);
    ([123; 115; 116; 97; 114; 116; 95; 108; 105; 110; 101; 125; 123; 115; 116; 97; 114; 116; 95; 99; 111; 108; 125], Ok [45; 51; 48]);
    ([93], Ok [93]);
    ([46; 33; 123; 115; 116; 97; 114; 116; 95; 108; 105; 110; 101; 125; 115; 123; 125; 123; 114; 117; 108; 101; 95; 110; 97; 109; 101; 33; 125], Err IndexError);
    ([123; 115; 116; 97; 114; 116; 95; 108; 105; 110; 101; 125; 123; 123; 123; 55; 97; 125; 125; 125; 123; 109; 101; 115; 115; 97; 103; 101; 33; 115; 125; 123; 112; 97; 116; 104; 33; 115; 125], Err KeyError);
    ([33; 115; 123; 112; 97; 116; 104; 125; 123; 114; 117; 108; 101; 95; 110; 97; 109; 101; 123; 55; 97; 125; 93], Err ValueError);
    ([125; 125; 123; 115; 116; 97; 114; 116; 95; 99; 111; 108], Err ValueError);
    ([123; 114; 117; 108; 101; 95; 110; 97; 109; 101; 125], Ok []);
    ([91; 123; 112; 97; 116; 104; 125; 33; 122], Ok [91; 47; 33; 122]);
    ([123; 112; 97; 116; 104; 123; 114; 117; 108; 101; 95; 110; 97; 109; 101; 125; 123; 114; 117; 108; 101; 95; 110; 97; 109; 101; 125; 123; 112; 97; 116; 104; 125], Err ValueError);
    ([125; 123; 114; 117; 108; 101; 95; 110; 97; 109; 101; 125; 33; 115; 123; 115; 116; 97; 114; 116; 95; 99; 111; 108; 125; 123; 115; 116; 97; 114; 116; 95; 108; 105; 110; 101; 125; 33], Err ValueError);
    ([33; 115; 123; 112; 97; 116; 104; 125; 123; 112; 97; 116; 104; 123; 114; 117; 108; 101; 95; 110; 97; 109; 101; 125], Err ValueError);
    ([123; 115; 116; 97; 114; 116; 95; 108; 105; 110; 101; 33; 115; 32; 125; 123; 115; 116; 97; 114; 116; 95; 108; 105; 110; 101; 125; 123; 115; 116; 97; 114; 116; 95; 99; 111; 108; 125; 123; 123], Err ValueError);
    ([33; 122; 115], Ok [33; 122; 115]);
    ([123; 114; 117; 108; 101; 95; 110; 97; 109; 101; 33; 115; 125; 123; 114; 117; 108; 101; 95; 110; 97; 109; 101; 125], Ok []);
    ([123; 123; 123; 109; 101; 115; 115; 97; 103; 101; 125; 33; 115], Ok [123; 33; 115]);
    ([123; 114; 117; 108; 101; 95; 110; 97; 109; 101; 125; 125; 125; 125; 123; 114; 117; 108; 101; 95; 110; 97; 109; 101; 48], Err ValueError);
    ([123; 114; 117; 108; 101; 95; 110; 97; 109; 101; 125; 123; 115; 116; 97; 114; 116; 95; 99; 111; 108; 125; 123; 115; 116; 97; 114; 116; 95; 99; 111; 108; 125], Ok [48; 48]);
    ([123; 48; 125], Err IndexError);
    ([123; 48; 125; 123; 115; 116; 97; 114; 116; 95; 99; 111; 108; 125; 123; 112; 97; 116; 104; 125], Err IndexError);
    ([125; 125; 123; 114; 117; 108; 101; 95; 110; 97; 109; 101; 48], Err ValueError);
    ([123; 48; 125; 33; 122], Err IndexError);
    ([123; 125; 123; 109; 101; 115; 115; 97; 103; 101; 33; 122; 125], Err IndexError);
    ([123; 115; 116; 97; 114; 116; 95; 99; 111; 108; 125; 33; 123; 48; 125], Err IndexError);
    ([123; 109; 101; 115; 115; 97; 103; 101; 125; 123; 114; 117; 108; 101; 95; 110; 97; 109; 101; 125; 123; 114; 117; 108; 101; 95; 110; 97; 109; 101], Err ValueError);
    ([93; 123; 77; 101; 115; 115; 97; 103; 101; 125; 123; 114; 117; 108; 101; 95; 110; 97; 109; 101; 125; 123; 112; 97; 116; 104; 125; 93; 123; 115; 116; 97; 114; 116; 95; 108; 105; 110; 101; 125], Err KeyError);
    ([125; 123; 115; 116; 97; 114; 116; 95; 99; 111; 108; 125; 115; 115], Err ValueError);
    ([123; 115; 116; 97; 114; 116; 95; 99; 111; 108; 125; 123; 109; 101; 115; 115; 97; 103; 101; 33; 115; 125; 33; 123; 112; 97; 116; 104; 125; 123; 109; 101; 115; 115; 97; 103; 101; 125], Ok [48; 33; 47]);
    ([123; 123; 115; 116; 97; 114; 116; 95; 99; 111; 108; 125; 48; 123; 115; 116; 97; 114; 116; 95; 108; 105; 110; 101; 32], Err ValueError);
    ([58; 123; 109; 101; 115; 115; 97; 103; 101; 125; 58; 125; 125; 93; 123; 112; 97; 116; 104; 125], Ok [58; 58; 125; 93; 47]);
    ([123; 115; 116; 97; 114; 116; 95; 108; 105; 110; 101; 125; 48], Ok [45; 51; 48]);
    ([123; 115; 116; 97; 114; 116; 95; 99; 111; 108; 125; 123; 115; 116; 97; 114; 116; 95; 108; 105; 110; 101; 125; 123; 125; 123; 112; 97; 116; 104; 33; 125; 32], Err IndexError);
    ([33; 122], Ok [33; 122]);
    ([123; 125; 115; 123; 123; 115; 116; 97; 114; 116; 95; 99; 111; 108; 125; 123; 115; 116; 97; 114; 116; 95; 99; 111; 108; 123; 114; 117; 108; 101; 95; 110; 97; 109; 101; 125], Err IndexError);
    ([58; 123; 112; 97; 116; 104; 125; 97], Ok [58; 47; 97]);
    ([123; 115; 116; 97; 114; 116; 95; 99; 111; 108; 123; 123], Err ValueError);
    ([33; 123; 123; 123; 115; 116; 97; 114; 116; 95; 108; 105; 110; 101; 125; 125; 125; 123], Err ValueError);
    ([123; 112; 97; 116; 104; 123; 114; 117; 108; 101; 95; 110; 97; 109; 101; 125; 123; 115; 116; 97; 114; 116; 95; 99; 111; 108; 33; 122; 125; 123; 123], Err ValueError);
    ([123; 109; 101; 115; 115; 97; 103; 101; 123; 109; 101; 115; 115; 97; 103; 101; 33; 125; 123; 123; 123; 114; 117; 108; 101; 95; 110; 97; 109; 101; 33; 122; 125; 97; 125; 125], Err ValueError);
    ([115; 91; 123; 112; 97; 116; 104; 33; 125; 123; 112; 97; 116; 104; 125], Err ValueError);
    ([123; 109; 101; 115; 115; 97; 103; 101; 125; 123; 114; 117; 108; 101; 95; 110; 97; 109; 101; 115; 123; 114; 117; 108; 101; 95; 110; 97; 109; 101; 125], Err ValueError);
    ([123; 109; 101; 115; 115; 97; 103; 101; 125; 123; 109; 101; 115; 115; 97; 103; 101; 125; 33; 123; 123; 115; 116; 97; 114; 116; 95; 99; 111; 108; 125], Err ValueError);
    ([125; 125; 115], Ok [125; 115]);
    ([123; 114; 117; 108; 101; 95; 110; 97; 109; 101; 125; 115; 123; 112; 97; 116; 104; 123; 115; 116; 97; 114; 116; 95; 108; 105; 110; 101], Err ValueError);
    ([123; 114; 117; 108; 101; 95; 110; 97; 109; 101; 125; 48; 123; 109; 101; 115; 115; 97; 103; 101; 33; 115; 125], Ok [48]);
    ([123; 115; 116; 97; 114; 116; 95; 108; 105; 110; 101; 125; 123; 115; 116; 97; 114; 116; 95; 108; 105; 110; 101; 125; 123; 125], Err IndexError);
    ([123; 112; 97; 116; 104; 125; 46; 123; 48; 125; 97; 48], Err IndexError);
    ([115; 123; 115; 116; 97; 114; 116; 95; 108; 105; 110; 101; 125; 123; 115; 116; 97; 114; 116; 95; 108; 105; 110; 101; 125; 123; 114; 117; 108; 101; 95; 110; 97; 109; 101; 125], Ok [115; 45; 51; 45; 51]);
    ([33; 122; 48; 93; 58], Ok [33; 122; 48; 93; 58]);
    ([123; 114; 117; 108; 101; 95; 110; 97; 109; 101; 125; 123; 114; 117; 108; 101; 95; 110; 97; 109; 101; 123; 112; 97; 116; 104; 125], Err ValueError);
    ([123; 112; 97; 116; 104; 125; 123; 114; 117; 108; 101; 95; 110; 97; 109; 101; 125], Ok [47]);
    ([123; 109; 101; 115; 115; 97; 103; 101; 33; 122; 125; 123; 115; 116; 97; 114; 116; 95; 99; 111; 108], Err ValueError);
    ([123; 112; 97; 116; 104; 125; 123; 115; 116; 97; 114; 116; 95; 108; 105; 110; 101; 125], Ok [47; 45; 51]);
    ([123; 114; 117; 108; 101; 95; 110; 97; 109; 101], Err ValueError);
    ([123; 125; 123; 125; 125; 32], Err IndexError);
    ([48; 123; 109; 101; 115; 115; 97; 103; 101; 33; 115; 125; 93], Ok [48; 93]);
    ([123; 123; 115; 116; 97; 114; 116; 95; 108; 105; 110; 101; 125; 123; 115; 116; 97; 114; 116; 95; 99; 111; 108; 125; 93], Err ValueError);
    ([123; 115; 116; 97; 114; 116; 95; 108; 105; 110; 101; 125; 46; 115], Ok [45; 51; 46; 115]);
    ([123; 55; 97; 125; 123; 115; 116; 97; 114; 116; 95; 99; 111; 108; 91; 123; 109; 101; 115; 115; 97; 103; 101; 125; 123; 115; 116; 97; 114; 116; 95; 99; 111; 108; 123; 115; 116; 97; 114; 116; 95; 108; 105; 110; 101; 58; 125], Err KeyError);
    ([123; 114; 117; 108; 101; 95; 110; 97; 109; 101; 125; 123; 115; 116; 97; 114; 116; 95; 99; 111; 108; 125; 123; 114; 117; 108; 101; 95; 110; 97; 109; 101; 125; 58; 123; 115; 116; 97; 114; 116; 95; 99; 111; 108; 125], Ok [48; 58; 48]);
    ([123; 112; 97; 116; 104; 33; 122; 125; 123; 112; 97; 116; 104; 125; 93; 123; 123; 48], Err ValueError);
    ([123; 115; 116; 97; 114; 116; 95; 108; 105; 110; 101; 125; 33; 115; 123; 109; 101; 115; 115; 97; 103; 101; 125; 125; 125; 123; 125; 123; 115; 116; 97; 114; 116; 95; 108; 105; 110; 101; 125], Err IndexError);
    ([33; 115; 125; 97; 123; 115; 116; 97; 114; 116; 95; 108; 105; 110; 101; 125], Err ValueError);
    ([123; 114; 117; 108; 101; 95; 110; 97; 109; 101; 125; 123; 114; 117; 108; 101; 95; 110; 97; 109; 101; 125; 125; 125], Ok [125]);
    ([123; 112; 97; 116; 104; 125; 123; 91], Err ValueError);
    ([125; 123; 112; 97; 116; 104; 125; 123; 114; 117; 108; 101; 95; 110; 97; 109; 101; 46], Err ValueError);
    ([123; 115; 116; 97; 114; 116; 95; 99; 111; 108; 123; 114; 117; 108; 101; 95; 110; 97; 109; 101; 33; 115; 32; 125], Err ValueError);
    ([33; 125; 125; 123; 123], Ok [33; 125; 123]);
    ([123; 115; 116; 97; 114; 116; 95; 108; 105; 110; 101; 125; 123; 125], Err IndexError);
    ([123; 114; 117; 108; 101; 95; 110; 97; 109; 101; 125; 58; 123; 109; 101; 115; 115; 97; 103; 101; 125], Ok [58]);
    ([123; 114; 117; 108; 101; 95; 110; 97; 109; 101; 33; 122; 125; 123; 109; 101; 115; 115; 97; 103; 101; 125; 115; 123; 115; 116; 97; 114; 116; 95; 108; 105; 110; 101; 33; 122; 125; 123; 112; 97; 116; 104; 125; 123; 109; 101; 115; 115; 97; 103; 101], Err ValueError);
    ([123; 115; 116; 97; 114; 116; 95; 99; 111; 108; 123; 115; 116; 97; 114; 116; 95; 108; 105; 110; 101; 125; 123; 109; 101; 115; 115; 97; 103; 101; 125], Err ValueError);
    ([125; 33; 115; 123; 115; 116; 97; 114; 116; 95; 99; 111; 108; 125], Err ValueError);
    ([123; 115; 116; 97; 114; 116; 95; 99; 111; 108; 125; 33; 115; 58; 123; 114; 117; 108; 101; 95; 110; 97; 109; 101; 33; 125], Err ValueError);
    ([33; 123; 109; 101; 115; 115; 97; 103; 101; 125; 125; 125; 123; 114; 117; 108; 101; 95; 110; 97; 109; 101; 125], Ok [33; 125]);
    ([123; 114; 117; 108; 101; 95; 110; 97; 109; 101; 123; 114; 117; 108; 101; 95; 110; 97; 109; 101; 33; 115; 58; 125], Err ValueError);
    ([123; 109; 101; 115; 115; 97; 103; 101; 125; 123; 125; 123; 114; 117; 108; 101; 95; 110; 97; 109; 101; 125; 123; 109; 101; 115; 115; 97; 103; 101; 125; 93], Err IndexError);
    ([123; 109; 101; 115; 115; 97; 103; 101; 125; 123; 123; 123; 48; 125; 123; 115; 116; 97; 114; 116; 95; 108; 105; 110; 101; 125; 123; 115; 116; 97; 114; 116; 95; 108; 105; 110; 101; 125; 123; 112; 97; 116; 104; 125], Err IndexError);
    ([93; 123; 109; 101; 115; 115; 97; 103; 101; 125; 93], Ok [93; 93]);
    ([32; 123; 115; 116; 97; 114; 116; 95; 108; 105; 110; 101; 125; 123; 114; 117; 108; 101; 95; 110; 97; 109; 101; 125; 33; 122], Ok [32; 45; 51; 33; 122]);
    ([123; 109; 101; 115; 115; 97; 103; 101; 125; 123; 115; 116; 97; 114; 116; 95; 108; 105; 110; 101; 125; 32; 123; 115; 116; 97; 114; 116; 95; 99; 111; 108; 125], Ok [45; 51; 32; 48]);
    ([97; 123; 123; 115; 116; 97; 114; 116; 95; 99; 111; 108; 125], Err ValueError);
    ([123; 109; 101; 115; 115; 97; 103; 101; 125; 123; 115; 116; 97; 114; 116; 95; 108; 105; 110; 101; 125; 123; 109; 101; 115; 115; 97; 103; 101; 123; 112; 97; 116; 104], Err ValueError);
    ([123; 115; 116; 97; 114; 116; 95; 108; 105; 110; 101; 125; 123; 114; 117; 108; 101; 95; 110; 97; 109; 101; 125; 125; 125; 123; 115; 116; 97; 114; 116; 95; 99; 111; 108; 123; 112; 97; 116; 104; 125; 123; 112; 97; 116; 104], Err ValueError);
    ([123; 112; 97; 116; 104; 125; 125; 33; 122; 123; 115; 116; 97; 114; 116; 95; 108; 105; 110; 101; 125; 123; 115; 116; 97; 114; 116; 95; 99; 111; 108], Err ValueError);
    ([97; 125; 123; 109; 101; 115; 115; 97; 103; 101; 33; 115; 125; 123; 109; 101; 115; 115; 97; 103; 101; 125; 46], Err ValueError);
    ([123; 115; 116; 97; 114; 116; 95; 108; 105; 110; 101; 125; 115; 123; 114; 117; 108; 101; 95; 110; 97; 109; 101; 125; 33; 122], Ok [45; 51; 115; 33; 122]);
    ([48; 123; 115; 116; 97; 114; 116; 95; 99; 111; 108; 125; 123; 112; 97; 116; 104; 125; 123; 109; 101; 115; 115; 97; 103; 101; 125; 115; 123; 115; 116; 97; 114; 116; 95; 99; 111; 108; 125], Ok [48; 48; 47; 115; 48]);
    ([32; 123; 112; 97; 116; 104], Err ValueError);
    ([32; 115; 33; 33; 123; 109; 101; 115; 115; 97; 103; 101; 125], Ok [32; 115; 33; 33]);
    ([115; 123; 115; 116; 97; 114; 116; 95; 99; 111; 108; 33; 115; 58; 125; 123; 110; 111; 112; 101; 125; 123; 115; 116; 97; 114; 116; 95; 108; 105; 110; 101; 125], Err KeyError);
    ([123; 112; 97; 116; 104; 125; 46; 123; 114; 117; 108; 101; 95; 110; 97; 109; 101; 33; 115; 58; 125; 123; 125; 123; 115; 116; 97; 114; 116; 95; 108; 105; 110; 101], Err IndexError);
    ([58; 123; 109; 101; 115; 115; 97; 103; 101; 58; 125; 58; 58], Ok [58; 58; 58]);
    ([97; 123; 115; 116; 97; 114; 116; 95; 108; 105; 110; 101; 125; 123; 123; 115; 116; 97; 114; 116; 95; 99; 111; 108; 125; 123; 114; 117; 108; 101; 95; 110; 97; 109; 101; 125], Err ValueError);
    ([123; 115; 116; 97; 114; 116; 95; 99; 111; 108; 58; 123; 114; 117; 108; 101; 95; 110; 97; 109; 101; 33; 125], Err ValueError);
    ([123; 115; 116; 97; 114; 116; 95; 99; 111; 108; 125; 97; 123; 109; 101; 115; 115; 97; 103; 101; 125; 123; 112; 97; 116; 104; 125; 93; 123; 115; 116; 97; 114; 116; 95; 99; 111; 108; 125], Ok [48; 97; 47; 93; 48]);
    ([123; 109; 101; 115; 115; 97; 103; 101; 33; 125], Err ValueError);
    ([93; 91], Ok [93; 91]);
    ([91; 123; 115; 116; 97; 114; 116; 95; 99; 111; 108; 123; 109; 101; 115; 115; 97; 103; 101; 33; 115; 125; 33; 115; 123; 123; 123; 115; 116; 97; 114; 116; 95; 99; 111; 108; 33; 115; 32; 125], Err ValueError);
    ([33; 115; 123; 109; 101; 115; 115; 97; 103; 101; 125; 97; 123; 115; 116; 97; 114; 116; 95; 108; 105; 110; 101; 33; 115; 32; 125], Err ValueError);
    ([93; 123; 112; 97; 116; 104; 123; 114; 117; 108; 101; 95; 110; 97; 109; 101; 125], Err ValueError);
    ([123; 109; 101; 115; 115; 97; 103; 101; 125; 123; 114; 117; 108; 101; 95; 110; 97; 109; 101; 125; 123; 110; 111; 112; 101; 125; 32; 123; 115; 116; 97; 114; 116; 95; 99; 111; 108; 33; 122; 125], Err KeyError);
    ([115; 123; 115; 116; 97; 114; 116; 95; 99; 111; 108; 123; 112; 97; 116; 104; 125; 58], Err ValueError);
    ([123; 112; 97; 116; 104; 125; 115], Ok [47; 115]);
    ([93; 123; 115; 116; 97; 114; 116; 95; 108; 105; 110; 101; 33; 125; 58; 123; 123; 123; 55; 97; 125], Err ValueError);
    ([123; 115; 116; 97; 114; 116; 95; 99; 111; 108; 125; 123; 114; 117; 108; 101; 95; 110; 97; 109; 101; 125; 123; 115; 116; 97; 114; 116; 95; 99; 111; 108; 33; 125], Err ValueError);
    ([123; 112; 97; 116; 104; 33; 122; 125; 125; 123; 115; 116; 97; 114; 116; 95; 99; 111; 108], Err ValueError);
    ([123; 55; 97; 125; 123; 112; 97; 116; 104; 125; 125; 33; 122; 123], Err KeyError);
    ([123; 112; 97; 116; 104; 33; 125; 123; 55; 97; 125; 123; 114; 117; 108; 101; 95; 110; 97; 109; 101; 125; 125; 123; 112; 97; 116; 104; 125; 123; 112; 97; 116; 104; 125], Err ValueError);
    ([58; 123; 112; 97; 116; 104; 125; 123; 114; 117; 108; 101; 95; 110; 97; 109; 101; 58; 123; 114; 117; 108; 101; 95; 110; 97; 109; 101; 125], Err ValueError);
    ([46; 125; 123; 109; 101; 115; 115; 97; 103; 101; 125; 123; 114; 117; 108; 101; 95; 110; 97; 109; 101; 125; 33], Err ValueError);
    ([123; 114; 117; 108; 101; 95; 110; 97; 109; 101; 123; 48; 125; 123; 114; 117; 108; 101; 95; 110; 97; 109; 101; 125], Err ValueError);
    ([123; 115; 116; 97; 114; 116; 95; 99; 111; 108; 125; 123; 115; 116; 97; 114; 116; 95; 108; 105; 110; 101; 125; 91; 123; 112; 97; 116; 104; 125; 123; 115; 116; 97; 114; 116; 95; 108; 105; 110; 101], Err ValueError);
    ([123; 109; 101; 115; 115; 97; 103; 101; 125; 123; 114; 117; 108; 101; 95; 110; 97; 109; 101; 33; 115; 32; 125; 125; 125; 123; 48; 125; 123; 112; 97; 116; 104; 125; 33; 122], Err ValueError);
    ([123; 114; 117; 108; 101; 95; 110; 97; 109; 101; 125; 125], Err ValueError);
    ([93; 33; 125; 125; 123; 114; 117; 108; 101; 95; 110; 97; 109; 101; 125], Ok [93; 33; 125]);
    ([123; 112; 97; 116; 104; 58; 125; 93; 123; 109; 101; 115; 115; 97; 103; 101; 125], Ok [47; 93]);
    ([123; 115; 116; 97; 114; 116; 95; 108; 105; 110; 101; 123; 115; 116; 97; 114; 116; 95; 99; 111; 108; 123; 112; 97; 116; 104; 123; 114; 117; 108; 101; 95; 110; 97; 109; 101; 125], Err ValueError);
    ([123; 125; 125; 123; 115; 116; 97; 114; 116; 95; 99; 111; 108; 33; 115; 125; 123; 115; 116; 97; 114; 116; 95; 99; 111; 108; 125; 123; 115; 116; 97; 114; 116; 95; 108; 105; 110; 101; 125], Err IndexError);
    ([123; 114; 117; 108; 101; 95; 110; 97; 109; 101; 125; 33; 122; 32], Ok [33; 122; 32]);
    ([32; 91], Ok [32; 91]);
    ([93; 123; 115; 116; 97; 114; 116; 95; 108; 105; 110; 101; 123; 112; 97; 116; 104; 125; 123; 115; 116; 97; 114; 116; 95; 108; 105; 110; 101; 125], Err ValueError);
    ([123; 123; 114; 117; 108; 101; 95; 110; 97; 109; 101; 125], Err ValueError);
    ([123; 123; 112; 97; 116; 104; 33; 115; 125; 33; 122], Err ValueError);
    ([93; 123; 123; 112; 97; 116; 104; 33; 122; 125; 115; 123; 112; 97; 116; 104; 33; 115; 58; 125], Err ValueError);
    ([123; 112; 97; 116; 104; 125; 123; 115; 116; 97; 114; 116; 95; 108; 105; 110; 101; 125; 123; 114; 117; 108; 101; 95; 110; 97; 109; 101; 33; 125; 33; 115], Err ValueError);
    ([123; 115; 116; 97; 114; 116; 95; 99; 111; 108; 125; 123; 112; 97; 116; 104; 125; 123; 115; 116; 97; 114; 116; 95; 99; 111; 108; 125; 123; 48; 125; 123; 115; 116; 97; 114; 116; 95; 108; 105; 110; 101; 125; 123; 115; 116; 97; 114; 116; 95; 108; 105; 110; 101; 125], Err IndexError);
    ([123; 109; 101; 115; 115; 97; 103; 101; 125; 123; 112; 97; 116; 104; 125; 123; 115; 116; 97; 114; 116; 95; 108; 105; 110; 101; 125; 123; 112; 97; 116; 104; 125; 48], Ok [47; 45; 51; 47; 48]);
    ([123; 109; 101; 115; 115; 97; 103; 101; 33; 122], Err ValueError);
    ([123; 109; 101; 115; 115; 97; 103; 101; 33; 122; 125; 123; 112; 97; 116; 104], Err ValueError);
    ([125; 97; 123; 112; 97; 116; 104; 33; 122; 125], Err ValueError);
    ([58; 125; 125; 123; 114; 117; 108; 101; 95; 110; 97; 109; 101; 33; 125; 123; 109; 101; 115; 115; 97; 103; 101; 123; 110; 111; 112; 101; 125; 123; 109; 101; 115; 115; 97; 103; 101; 125], Err ValueError);
    ([115; 123; 123; 123; 112; 97; 116; 104; 125; 125; 125], Ok [115; 123; 47; 125]);
    ([123; 112; 97; 116; 104; 125; 123; 114; 117; 108; 101; 95; 110; 97; 109; 101; 125; 125; 125], Ok [47; 125]);
    ([123; 112; 97; 116; 104; 125; 46], Ok [47; 46]);
    ([123; 48; 125; 32; 123; 109; 101; 115; 115; 97; 103; 101; 125; 46; 123; 109; 101; 115; 115; 97; 103; 101; 125; 123; 114; 117; 108; 101; 95; 110; 97; 109; 101; 125], Err IndexError);
    ([123; 114; 117; 108; 101; 95; 110; 97; 109; 101; 123; 115; 116; 97; 114; 116; 95; 108; 105; 110; 101], Err ValueError);
    ([123; 115; 116; 97; 114; 116; 95; 108; 105; 110; 101; 33; 115; 58; 125; 125; 123; 123; 114; 117; 108; 101; 95; 110; 97; 109; 101; 125; 32], Err ValueError);
    ([123; 112; 97; 116; 104; 93; 123; 114; 117; 108; 101; 95; 110; 97; 109; 101; 123; 77; 101; 115; 115; 97; 103; 101; 125; 123; 77; 101; 115; 115; 97; 103; 101; 125; 33; 115], Err ValueError);
    ([123; 112; 97; 116; 104; 125; 93; 123; 115; 116; 97; 114; 116; 95; 108; 105; 110; 101; 125; 123; 109; 101; 115; 115; 97; 103; 101; 33; 115; 58; 125], Ok [47; 93; 45; 51]);
    ([123; 115; 116; 97; 114; 116; 95; 99; 111; 108; 125; 125; 125], Ok [48; 125]);
    ([125; 123; 125; 123; 112; 97; 116; 104; 125; 123; 109; 101; 115; 115; 97; 103; 101; 125], Err ValueError);
    ([123; 115; 116; 97; 114; 116; 95; 108; 105; 110; 101; 125; 123; 115; 116; 97; 114; 116; 95; 99; 111; 108; 123; 114; 117; 108; 101; 95; 110; 97; 109; 101; 125], Err ValueError);
    ([123; 115; 116; 97; 114; 116; 95; 108; 105; 110; 101; 33; 125; 115], Err ValueError);
    ([123; 114; 117; 108; 101; 95; 110; 97; 109; 101; 123; 115; 116; 97; 114; 116; 95; 99; 111; 108; 125; 123; 115; 116; 97; 114; 116; 95; 108; 105; 110; 101; 125; 32; 33; 115], Err ValueError);
    ([123; 114; 117; 108; 101; 95; 110; 97; 109; 101; 32; 125; 125; 123; 115; 116; 97; 114; 116; 95; 99; 111; 108; 123; 114; 117; 108; 101; 95; 110; 97; 109; 101; 125], Err KeyError);
    ([93; 58; 123; 110; 111; 112; 101; 125], Err KeyError);
    ([48; 123; 115; 116; 97; 114; 116; 95; 99; 111; 108; 93; 123; 48; 125], Err ValueError);
    ([123; 115; 116; 97; 114; 116; 95; 108; 105; 110; 101; 123; 110; 111; 112; 101; 125; 123; 115; 116; 97; 114; 116; 95; 99; 111; 108; 125; 123; 112; 97; 116; 104; 125], Err ValueError);
    ([123; 115; 116; 97; 114; 116; 95; 99; 111; 108; 33], Err ValueError);
    ([33; 122; 123; 114; 117; 108; 101; 95; 110; 97; 109; 101; 125], Ok [33; 122]);
    ([123; 109; 101; 115; 115; 97; 103; 101; 125; 123; 55; 97; 125; 123; 114; 117; 108; 101; 95; 110; 97; 109; 101; 125; 33; 122; 123; 112; 97; 116; 104], Err KeyError);
    ([123; 115; 116; 97; 114; 116; 95; 99; 111; 108; 125; 93; 93; 123; 114; 117; 108; 101; 95; 110; 97; 109; 101; 125; 48; 125], Err ValueError);
    ([123; 112; 97; 116; 104; 125; 123; 109; 101; 115; 115; 97; 103; 101; 125; 93; 123; 115; 116; 97; 114; 116; 95; 108; 105; 110; 101; 125], Ok [47; 93; 45; 51]);
    ([32; 97; 123; 112; 97; 116; 104; 125; 123; 114; 117; 108; 101; 95; 110; 97; 109; 101; 125; 33; 123; 115; 116; 97; 114; 116; 95; 108; 105; 110; 101; 125], Ok [32; 97; 47; 33; 45; 51]);
    ([33; 91; 46; 123; 123; 115; 116; 97; 114; 116; 95; 99; 111; 108; 33; 122; 125; 97], Err ValueError);
    ([123; 115; 116; 97; 114; 116; 95; 99; 111; 108], Err ValueError);
    ([125; 125; 123; 114; 117; 108; 101; 95; 110; 97; 109; 101; 58; 125; 123; 112; 97; 116; 104; 125; 123; 125; 123; 115; 116; 97; 114; 116; 95; 108; 105; 110; 101; 125; 46], Err IndexError);
    ([123; 114; 117; 108; 101; 95; 110; 97; 109; 101; 123; 125], Err ValueError);
    ([123; 115; 116; 97; 114; 116; 95; 99; 111; 108; 125; 58; 123; 112; 97; 116; 104; 125; 123; 115; 116; 97; 114; 116; 95; 99; 111; 108; 123; 109; 101; 115; 115; 97; 103; 101; 125], Err ValueError);
    ([123; 115; 116; 97; 114; 116; 95; 99; 111; 108; 33; 122; 123; 112; 97; 116; 104; 125; 58; 123; 114; 117; 108; 101; 95; 110; 97; 109; 101; 125; 123; 114; 117; 108; 101; 95; 110; 97; 109; 101; 58; 125], Err ValueError);
    ([123; 115; 116; 97; 114; 116; 95; 108; 105; 110; 101; 125; 123; 115; 116; 97; 114; 116; 95; 99; 111; 108; 33; 115; 125; 32], Ok [45; 51; 48; 32]);
    ([48; 48; 33; 122; 33], Ok [48; 48; 33; 122; 33]);
    ([123; 109; 101; 115; 115; 97; 103; 101; 123; 112; 97; 116; 104; 123; 109; 101; 115; 115; 97; 103; 101; 125; 123; 123; 123; 114; 117; 108; 101; 95; 110; 97; 109; 101], Err ValueError);
    ([123; 114; 117; 108; 101; 95; 110; 97; 109; 101; 123; 109; 101; 115; 115; 97; 103; 101; 125; 33; 115; 123; 109; 101; 115; 115; 97; 103; 101; 125; 125; 125; 32], Err ValueError);
    ([123; 109; 101; 115; 115; 97; 103; 101], Err ValueError);
    ([123; 77; 101; 115; 115; 97; 103; 101; 125; 123; 112; 97; 116; 104; 33; 122; 125; 123; 125], Err KeyError);
    ([125; 125; 91; 123; 109; 101; 115; 115; 97; 103; 101; 33; 115; 32; 125; 123; 112; 97; 116; 104], Err ValueError);
    ([123; 115; 116; 97; 114; 116; 95; 99; 111; 108; 33; 115; 32; 125], Err ValueError);
    ([125; 125; 97; 91; 32], Ok [125; 97; 91; 32]);
    ([123; 114; 117; 108; 101; 95; 110; 97; 109; 101; 125; 123; 115; 116; 97; 114; 116; 95; 108; 105; 110; 101; 125; 123; 115; 116; 97; 114; 116; 95; 99; 111; 108; 125; 125; 123; 109; 101; 115; 115; 97; 103; 101; 125; 33; 115], Err ValueError);
    ([123; 115; 116; 97; 114; 116; 95; 99; 111; 108; 33; 115; 125; 123; 48; 125], Err IndexError);
    ([115; 91], Ok [115; 91]);
    ([123; 55; 97; 125], Err KeyError);
    ([33; 115; 93; 48; 115; 125; 33], Err ValueError);
    ([91; 93], Ok [91; 93]);
    ([123; 114; 117; 108; 101; 95; 110; 97; 109; 101; 33; 115; 125; 125; 123; 114; 117; 108; 101; 95; 110; 97; 109; 101; 123; 115; 116; 97; 114; 116; 95; 99; 111; 108], Err ValueError);
    ([123; 115; 116; 97; 114; 116; 95; 108; 105; 110; 101; 125; 123; 115; 116; 97; 114; 116; 95; 99; 111; 108; 33; 115; 58; 125; 125; 125; 115], Ok [45; 51; 48; 125; 115]);
    ([123; 110; 111; 112; 101; 125], Err KeyError);
    ([115; 123; 114; 117; 108; 101; 95; 110; 97; 109; 101; 125], Ok [115]);
    ([123; 115; 116; 97; 114; 116; 95; 99; 111; 108; 33; 115; 58; 125; 123; 115; 116; 97; 114; 116; 95; 108; 105; 110; 101; 125; 123; 112; 97; 116; 104; 58; 125; 123; 115; 116; 97; 114; 116; 95; 108; 105; 110; 101; 125; 123; 115; 116; 97; 114; 116; 95; 108; 105; 110; 101; 125; 33], Ok [48; 45; 51; 47; 45; 51; 45; 51; 33]);
    ([123; 115; 116; 97; 114; 116; 95; 99; 111; 108; 125; 123; 115; 116; 97; 114; 116; 95; 99; 111; 108; 125; 33; 115; 125], Err ValueError);
    ([123; 115; 116; 97; 114; 116; 95; 99; 111; 108; 125; 123; 115; 116; 97; 114; 116; 95; 99; 111; 108; 123; 114; 117; 108; 101; 95; 110; 97; 109; 101; 123; 109; 101; 115; 115; 97; 103; 101; 58; 125; 123; 115; 116; 97; 114; 116; 95; 108; 105; 110; 101; 125], Err ValueError);
    ([123; 114; 117; 108; 101; 95; 110; 97; 109; 101; 125; 115; 123; 123; 123; 115; 116; 97; 114; 116; 95; 108; 105; 110; 101; 33; 125; 123; 114; 117; 108; 101; 95; 110; 97; 109; 101; 125; 123; 115; 116; 97; 114; 116; 95; 99; 111; 108; 33; 115; 125], Err ValueError);
    ([97; 125; 125; 123; 109; 101; 115; 115; 97; 103; 101; 125], Ok [97; 125]);
    ([123; 77; 101; 115; 115; 97; 103; 101; 125], Err KeyError);
    ([123; 114; 117; 108; 101; 95; 110; 97; 109; 101; 125; 58; 32], Ok [58; 32]);
    ([46; 123; 115; 116; 97; 114; 116; 95; 99; 111; 108; 125], Ok [46; 48]);
    ([123; 115; 116; 97; 114; 116; 95; 108; 105; 110; 101; 125; 125; 125; 123; 115; 116; 97; 114; 116; 95; 108; 105; 110; 101; 123; 123; 32], Err ValueError);
    ([32; 123; 112; 97; 116; 104; 33; 125; 123; 123], Err ValueError);
    ([123; 114; 117; 108; 101; 95; 110; 97; 109; 101; 33; 115; 125; 58; 125; 125; 123; 110; 111; 112; 101; 125], Err KeyError);
    ([123; 110; 111; 112; 101; 125; 46], Err KeyError);
    ([123; 123; 109; 101; 115; 115; 97; 103; 101; 125; 123; 115; 116; 97; 114; 116; 95; 99; 111; 108; 97; 123; 109; 101; 115; 115; 97; 103; 101; 33; 122; 125], Err ValueError);
    ([123; 109; 101; 115; 115; 97; 103; 101; 46], Err ValueError);
    ([123; 115; 116; 97; 114; 116; 95; 99; 111; 108; 125; 125; 125; 123; 114; 117; 108; 101; 95; 110; 97; 109; 101; 123; 109; 101; 115; 115; 97; 103; 101; 125; 123; 114; 117; 108; 101; 95; 110; 97; 109; 101; 125; 123; 109; 101; 115; 115; 97; 103; 101; 125], Err ValueError);
    ([123; 109; 101; 115; 115; 97; 103; 101; 125; 123; 109; 101; 115; 115; 97; 103; 101; 125], Ok []);
    ([125; 125; 123; 115; 116; 97; 114; 116; 95; 108; 105; 110; 101; 125; 33; 115; 33; 122], Ok [125; 45; 51; 33; 115; 33; 122]);
    ([123; 115; 116; 97; 114; 116; 95; 99; 111; 108; 33; 115; 58; 125; 123; 115; 116; 97; 114; 116; 95; 99; 111; 108], Err ValueError);
    ([123; 115; 116; 97; 114; 116; 95; 108; 105; 110; 101; 48; 125; 125; 123; 114; 117; 108; 101; 95; 110; 97; 109; 101; 125], Err KeyError);
    ([123; 109; 101; 115; 115; 97; 103; 101; 33; 125; 123; 77; 101; 115; 115; 97; 103; 101; 125; 123; 115; 116; 97; 114; 116; 95; 108; 105; 110; 101; 125], Err ValueError);
    ([123; 48; 125; 33; 115; 123; 115; 116; 97; 114; 116; 95; 108; 105; 110; 101; 125; 123; 115; 116; 97; 114; 116; 95; 108; 105; 110; 101; 32; 125; 125], Err IndexError);
    ([123; 115; 116; 97; 114; 116; 95; 108; 105; 110; 101; 123; 109; 101; 115; 115; 97; 103; 101; 33; 122], Err ValueError);
    ([125; 123; 109; 101; 115; 115; 97; 103; 101; 123; 112; 97; 116; 104; 125], Err ValueError);
    ([48; 123; 115; 116; 97; 114; 116; 95; 108; 105; 110; 101; 125; 32; 123; 115; 116; 97; 114; 116; 95; 108; 105; 110; 101; 33; 125], Err ValueError);
    ([123; 112; 97; 116; 104], Err ValueError);
    ([123; 55; 97; 125; 48; 123; 115; 116; 97; 114; 116; 95; 108; 105; 110; 101; 125; 91; 123; 112; 97; 116; 104; 125; 32], Err KeyError);
    ([33; 122; 123; 112; 97; 116; 104], Err ValueError);
    ([123; 112; 97; 116; 104; 125; 123; 123; 112; 97; 116; 104; 125], Err ValueError);
    ([58; 32; 123; 123; 123; 109; 101; 115; 115; 97; 103; 101; 125; 32; 97], Ok [58; 32; 123; 32; 97]);
    ([123; 114; 117; 108; 101; 95; 110; 97; 109; 101; 125; 123; 112; 97; 116; 104; 33; 122; 125; 123; 110; 111; 112; 101; 125; 123; 114; 117; 108; 101; 95; 110; 97; 109; 101; 125; 123; 112; 97; 116; 104; 125], Err ValueError);
    ([123; 114; 117; 108; 101; 95; 110; 97; 109; 101; 125; 123; 112; 97; 116; 104; 125; 123; 109; 101; 115; 115; 97; 103; 101; 33; 115; 32; 125; 93; 32; 33; 115], Err ValueError);
    ([123; 115; 116; 97; 114; 116; 95; 108; 105; 110; 101; 33; 115; 58; 125; 123; 109; 101; 115; 115; 97; 103; 101; 125; 123; 115; 116; 97; 114; 116; 95; 108; 105; 110; 101; 33; 115; 58; 125; 123; 115; 116; 97; 114; 116; 95; 99; 111; 108; 123; 115; 116; 97; 114; 116; 95; 108; 105; 110; 101; 125], Err ValueError);
    ([123; 123; 123; 109; 101; 115; 115; 97; 103; 101; 125; 123; 77; 101; 115; 115; 97; 103; 101; 125; 33; 115; 123; 109; 101; 115; 115; 97; 103; 101; 125; 123; 109; 101; 115; 115; 97; 103; 101; 125], Err KeyError);
    ([123; 115; 116; 97; 114; 116; 95; 99; 111; 108; 125; 123; 115; 116; 97; 114; 116; 95; 99; 111; 108; 125], Ok [48; 48]);
    ([123; 112; 97; 116; 104; 33; 115; 58; 125; 123; 123; 109; 101; 115; 115; 97; 103; 101; 33; 115; 125; 123; 115; 116; 97; 114; 116; 95; 108; 105; 110; 101; 125; 123; 109; 101; 115; 115; 97; 103; 101; 125], Err ValueError);
    ([115; 123; 109; 101; 115; 115; 97; 103; 101; 125], Ok [115]);
    ([91; 48], Ok [91; 48]);
    ([123; 115; 116; 97; 114; 116; 95; 99; 111; 108; 125; 123; 112; 97; 116; 104; 125; 123; 115; 116; 97; 114; 116; 95; 108; 105; 110; 101; 125], Ok [48; 47; 45; 51]);
    ([123; 115; 116; 97; 114; 116; 95; 108; 105; 110; 101; 125; 115], Ok [45; 51; 115]);
    ([123; 115; 116; 97; 114; 116; 95; 108; 105; 110; 101; 58; 125; 123; 115; 116; 97; 114; 116; 95; 99; 111; 108; 33; 115; 58; 125], Ok [45; 51; 48]);
    ([32; 123; 115; 116; 97; 114; 116; 95; 108; 105; 110; 101; 125], Ok [32; 45; 51]);
    ([123; 114; 117; 108; 101; 95; 110; 97; 109; 101; 125; 123; 123; 123; 114; 117; 108; 101; 95; 110; 97; 109; 101; 125; 125], Err ValueError);
    ([123; 114; 117; 108; 101; 95; 110; 97; 109; 101; 125; 123; 112; 97; 116; 104; 125; 48; 123; 112; 97; 116; 104; 125; 97; 48], Ok [47; 48; 47; 97; 48]);
    ([123; 109; 101; 115; 115; 97; 103; 101; 125; 97; 91], Ok [97; 91]);
    ([91; 91; 33; 97; 123; 48; 125], Err IndexError);
    ([123; 115; 116; 97; 114; 116; 95; 99; 111; 108; 125; 123; 110; 111; 112; 101; 125; 123; 109; 101; 115; 115; 97; 103; 101; 125; 123; 115; 116; 97; 114; 116; 95; 108; 105; 110; 101; 33; 115; 58; 125; 123; 115; 116; 97; 114; 116; 95; 108; 105; 110; 101; 125], Err KeyError);
    ([123; 115; 116; 97; 114; 116; 95; 99; 111; 108; 125; 97; 33; 123; 115; 116; 97; 114; 116; 95; 108; 105; 110; 101; 125], Ok [48; 97; 33; 45; 51]);
    ([33; 122; 125; 125; 123; 115; 116; 97; 114; 116; 95; 108; 105; 110; 101; 33; 115; 58; 125; 125; 123; 109; 101; 115; 115; 97; 103; 101; 125; 93], Err ValueError);
    ([123; 77; 101; 115; 115; 97; 103; 101; 125; 125; 123; 112; 97; 116; 104; 33; 122; 125], Err KeyError);
    ([97; 123; 55; 97; 125], Err KeyError);
    ([123; 115; 116; 97; 114; 116; 95; 99; 111; 108; 125; 123; 115; 116; 97; 114; 116; 95; 99; 111; 108; 125; 123; 115; 116; 97; 114; 116; 95; 108; 105; 110; 101], Err ValueError);
    ([93; 125; 125], Ok [93; 125]);
    ([123; 123; 115], Ok [123; 115]);
    ([33; 122; 91; 58; 123], Err ValueError);
    ([123; 109; 101; 115; 115; 97; 103; 101; 125; 123; 114; 117; 108; 101; 95; 110; 97; 109; 101; 125; 33; 122], Ok [33; 122]);
    ([58; 123; 123; 123; 110; 111; 112; 101; 125], Err KeyError);
    ([123; 112; 97; 116; 104; 123; 114; 117; 108; 101; 95; 110; 97; 109; 101; 125], Err ValueError);
    ([123; 114; 117; 108; 101; 95; 110; 97; 109; 101; 33; 122; 125], Err ValueError);
    ([125; 125; 93; 123; 114; 117; 108; 101; 95; 110; 97; 109; 101; 123; 114; 117; 108; 101; 95; 110; 97; 109; 101; 125; 33; 115], Err ValueError);
    ([123; 115; 116; 97; 114; 116; 95; 99; 111; 108; 125; 33; 115], Ok [48; 33; 115]);
    ([123; 123; 123; 109; 101; 115; 115; 97; 103; 101; 123; 114; 117; 108; 101; 95; 110; 97; 109; 101; 93; 123; 114; 117; 108; 101; 95; 110; 97; 109; 101; 125], Err ValueError);
    ([115; 93; 123; 55; 97; 125; 97], Err KeyError);
    ([123; 109; 101; 115; 115; 97; 103; 101; 125; 123; 115; 116; 97; 114; 116; 95; 99; 111; 108; 125; 123; 112; 97; 116; 104], Err ValueError);
    ([123; 115; 116; 97; 114; 116; 95; 99; 111; 108; 125; 123; 112; 97; 116; 104; 125; 33; 115; 33], Ok [48; 47; 33; 115; 33]);
    ([123; 112; 97; 116; 104; 33; 115; 32; 125; 123; 112; 97; 116; 104; 125; 123; 125], Err ValueError);
    ([123; 109; 101; 115; 115; 97; 103; 101; 125; 123; 112; 97; 116; 104], Err ValueError);
    ([123; 112; 97; 116; 104; 125; 123], Err ValueError);
    ([58; 115; 125], Err ValueError);
    ([123; 114; 117; 108; 101; 95; 110; 97; 109; 101; 125; 123; 125; 32; 33; 115; 123; 48; 125], Err IndexError);
    ([123; 109; 101; 115; 115; 97; 103; 101; 125; 123; 112; 97; 116; 104; 33; 122; 125; 58; 123; 115; 116; 97; 114; 116; 95; 99; 111; 108; 125], Err ValueError);
    ([33; 122; 97], Ok [33; 122; 97]);
    ([123; 115; 116; 97; 114; 116; 95; 108; 105; 110; 101; 125; 123; 112; 97; 116; 104; 123; 114; 117; 108; 101; 95; 110; 97; 109; 101], Err ValueError);
    ([123; 115; 116; 97; 114; 116; 95; 99; 111; 108; 125; 32], Ok [48; 32]);
    ([123; 109; 101; 115; 115; 97; 103; 101; 125; 123; 109; 101; 115; 115; 97; 103; 101; 125; 123; 112; 97; 116; 104; 125; 33; 115; 33; 115; 123; 114; 117; 108; 101; 95; 110; 97; 109; 101; 58; 125], Ok [47; 33; 115; 33; 115]);
    ([123; 115; 116; 97; 114; 116; 95; 108; 105; 110; 101; 125; 123; 123], Ok [45; 51; 123]);
    ([48; 48; 115; 123; 114; 117; 108; 101; 95; 110; 97; 109; 101; 33; 122; 125; 125], Err ValueError);
    ([123; 115; 116; 97; 114; 116; 95; 99; 111; 108; 125; 123; 114; 117; 108; 101; 95; 110; 97; 109; 101; 33; 115; 32; 125; 97; 123; 109; 101; 115; 115; 97; 103; 101; 125; 123; 114; 117; 108; 101; 95; 110; 97; 109; 101; 125; 123; 112; 97; 116; 104], Err ValueError);
    ([123; 109; 101; 115; 115; 97; 103; 101; 93; 123; 109; 101; 115; 115; 97; 103; 101], Err ValueError);
    ([123; 115; 116; 97; 114; 116; 95; 99; 111; 108; 125; 123; 109; 101; 115; 115; 97; 103; 101; 125; 123; 115; 116; 97; 114; 116; 95; 99; 111; 108; 33; 115; 125; 32; 123; 114; 117; 108; 101; 95; 110; 97; 109; 101; 33; 115; 58; 125], Ok [48; 48; 32]);
    ([123; 125; 48; 33; 115; 123; 109; 101; 115; 115; 97; 103; 101; 125; 123; 109; 101; 115; 115; 97; 103; 101; 33; 115; 32; 125; 123], Err IndexError);
    ([123; 77; 101; 115; 115; 97; 103; 101; 125; 123; 48; 125], Err KeyError);
    ([123; 112; 97; 116; 104; 125; 123; 115; 116; 97; 114; 116; 95; 108; 105; 110; 101; 58; 125; 123; 109; 101; 115; 115; 97; 103; 101; 125], Ok [47; 45; 51]);
    ([123; 109; 101; 115; 115; 97; 103; 101; 123; 112; 97; 116; 104], Err ValueError);
    ([33; 91; 123; 114; 117; 108; 101; 95; 110; 97; 109; 101; 125; 48], Ok [33; 91; 48]);
    ([33; 115; 123; 114; 117; 108; 101; 95; 110; 97; 109; 101; 125; 123; 123; 123; 115; 116; 97; 114; 116; 95; 99; 111; 108], Err ValueError);
    ([32; 91; 48; 125; 46], Err ValueError);
    ([123; 112; 97; 116; 104; 125; 123; 77; 101; 115; 115; 97; 103; 101; 125; 123; 115; 116; 97; 114; 116; 95; 108; 105; 110; 101], Err KeyError);
    ([123; 114; 117; 108; 101; 95; 110; 97; 109; 101; 125; 123; 123; 55; 97; 125], Err ValueError);
    ([123; 114; 117; 108; 101; 95; 110; 97; 109; 101; 125; 123; 112; 97; 116; 104; 123; 109; 101; 115; 115; 97; 103; 101; 33; 115; 58; 125; 123; 115; 116; 97; 114; 116; 95; 99; 111; 108; 125; 123; 112; 97; 116; 104; 125; 123; 115; 116; 97; 114; 116; 95; 108; 105; 110; 101], Err ValueError);
    ([123; 115; 116; 97; 114; 116; 95; 99; 111; 108; 123; 112; 97; 116; 104; 125; 115; 33; 115; 33; 115], Err ValueError);
    ([97; 32], Ok [97; 32]);
    ([123; 109; 101; 115; 115; 97; 103; 101; 125; 123; 115; 116; 97; 114; 116; 95; 99; 111; 108; 33; 115; 125; 125; 33; 115; 32], Err ValueError);
    ([123; 114; 117; 108; 101; 95; 110; 97; 109; 101; 125; 46; 123; 114; 117; 108; 101; 95; 110; 97; 109; 101], Err ValueError);
    ([123; 123; 48; 125; 33; 122; 46], Err ValueError);
    ([46; 123; 109; 101; 115; 115; 97; 103; 101; 125; 123; 115; 116; 97; 114; 116; 95; 108; 105; 110; 101], Err ValueError);
    ([33; 122; 123; 115; 116; 97; 114; 116; 95; 99; 111; 108; 125; 125; 125], Ok [33; 122; 48; 125]);
    ([123; 114; 117; 108; 101; 95; 110; 97; 109; 101; 125; 123; 109; 101; 115; 115; 97; 103; 101; 125; 123; 112; 97; 116; 104; 125], Ok [47]);
    ([123; 115; 116; 97; 114; 116; 95; 108; 105; 110; 101], Err ValueError);
    ([123; 112; 97; 116; 104; 125; 123; 109; 101; 115; 115; 97; 103; 101; 125; 123; 112; 97; 116; 104; 33; 115; 125; 48], Ok [47; 47; 48]);
    ([123; 110; 111; 112; 101; 125; 33; 123; 115; 116; 97; 114; 116; 95; 99; 111; 108; 125], Err KeyError);
    ([123; 109; 101; 115; 115; 97; 103; 101; 125; 33; 125], Err ValueError);
    ([33; 122; 123; 123; 58], Ok [33; 122; 123; 58]);
    ([125; 125; 123; 114; 117; 108; 101; 95; 110; 97; 109; 101; 125], Ok [125]);
    ([123; 115; 116; 97; 114; 116; 95; 108; 105; 110; 101; 125; 125; 125; 123; 115; 116; 97; 114; 116; 95; 99; 111; 108; 125; 33; 122], Ok [45; 51; 125; 48; 33; 122]);
    ([115; 91; 115], Ok [115; 91; 115]);
    ([123; 112; 97; 116; 104; 125; 123; 110; 111; 112; 101; 125; 123; 114; 117; 108; 101; 95; 110; 97; 109; 101; 125; 123; 115; 116; 97; 114; 116; 95; 99; 111; 108; 33; 122], Err KeyError);
    ([123; 115; 116; 97; 114; 116; 95; 99; 111; 108; 33; 115; 32; 125; 123; 115; 116; 97; 114; 116; 95; 108; 105; 110; 101; 125; 123; 55; 97; 125], Err ValueError);
    ([123; 109; 101; 115; 115; 97; 103; 101; 125; 91], Ok [91]);
    ([123; 115; 116; 97; 114; 116; 95; 108; 105; 110; 101; 125; 123; 109; 101; 115; 115; 97; 103; 101; 123; 115; 116; 97; 114; 116; 95; 99; 111; 108; 33; 125], Err ValueError);
    ([123; 48; 125; 123; 114; 117; 108; 101; 95; 110; 97; 109; 101; 33; 125; 123; 112; 97; 116; 104; 33; 115; 32; 125; 123; 115; 116; 97; 114; 116; 95; 108; 105; 110; 101; 125; 97; 123; 109; 101; 115; 115; 97; 103; 101], Err IndexError);
    ([123; 115; 116; 97; 114; 116; 95; 108; 105; 110; 101; 123; 123; 112; 97; 116; 104; 123; 115; 116; 97; 114; 116; 95; 108; 105; 110; 101; 33; 115; 125; 33], Err ValueError);
    ([48; 123; 48; 125], Err IndexError);
    ([123; 112; 97; 116; 104; 125; 115; 48; 125], Err ValueError);
    ([46; 91; 33; 122; 123; 115; 116; 97; 114; 116; 95; 99; 111; 108; 125], Ok [46; 91; 33; 122; 48]);
    ([123; 112; 97; 116; 104; 125; 123; 115; 116; 97; 114; 116; 95; 99; 111; 108; 125; 125; 123; 123], Err ValueError);
    ([123; 115; 116; 97; 114; 116; 95; 108; 105; 110; 101; 123; 114; 117; 108; 101; 95; 110; 97; 109; 101; 125; 123; 115; 116; 97; 114; 116; 95; 108; 105; 110; 101; 33; 122; 125], Err ValueError);
    ([123; 115; 116; 97; 114; 116; 95; 108; 105; 110; 101; 33; 115; 58; 125; 32; 97; 125; 125; 125; 125], Ok [45; 51; 32; 97; 125; 125]);
    ([33; 115; 58; 33; 123; 109; 101; 115; 115; 97; 103; 101; 125], Ok [33; 115; 58; 33]);
    ([123; 112; 97; 116; 104; 125; 97], Ok [47; 97]);
    ([123; 109; 101; 115; 115; 97; 103; 101; 125; 33], Ok [33]);
    ([123; 114; 117; 108; 101; 95; 110; 97; 109; 101; 125; 46; 123; 112; 97; 116; 104; 48; 48], Err ValueError);
    ([91; 58; 123; 123], Ok [91; 58; 123]);
    ([123; 112; 97; 116; 104; 125; 123; 109; 101; 115; 115; 97; 103; 101; 125], Ok [47]);
    ([97; 123; 109; 101; 115; 115; 97; 103; 101; 125; 32; 97], Ok [97; 32; 97]);
    ([33; 115; 123; 115; 116; 97; 114; 116; 95; 108; 105; 110; 101; 125; 33; 115; 125; 125; 46], Ok [33; 115; 45; 51; 33; 115; 125; 46]);
    ([123; 109; 101; 115; 115; 97; 103; 101; 33; 122; 125; 48; 123; 112; 97; 116; 104; 33; 115; 125; 123; 77; 101; 115; 115; 97; 103; 101; 125], Err ValueError);
    ([123; 109; 101; 115; 115; 97; 103; 101; 125; 32; 123; 112; 97; 116; 104; 125; 123; 115; 116; 97; 114; 116; 95; 99; 111; 108; 125; 91; 93], Ok [32; 47; 48; 91; 93]);
    ([123; 114; 117; 108; 101; 95; 110; 97; 109; 101; 125; 58; 123; 109; 101; 115; 115; 97; 103; 101; 125; 123; 109; 101; 115; 115; 97; 103; 101; 125; 33; 122], Ok [58; 33; 122]);
    ([32; 33; 115; 123; 110; 111; 112; 101; 125; 91], Err KeyError);
    ([123; 115; 116; 97; 114; 116; 95; 108; 105; 110; 101; 125; 123; 109; 101; 115; 115; 97; 103; 101; 58; 125; 58; 33; 115; 123; 109; 101; 115; 115; 97; 103; 101; 125; 125], Err ValueError);
    ([93; 123; 109; 101; 115; 115; 97; 103; 101; 33; 125; 123; 114; 117; 108; 101; 95; 110; 97; 109; 101; 125; 123; 115; 116; 97; 114; 116; 95; 108; 105; 110; 101; 125], Err ValueError);
    ([123; 109; 101; 115; 115; 97; 103; 101; 125; 125; 123; 115; 116; 97; 114; 116; 95; 99; 111; 108; 125], Err ValueError);
    ([123; 114; 117; 108; 101; 95; 110; 97; 109; 101; 58; 93; 123; 115; 116; 97; 114; 116; 95; 108; 105; 110; 101; 125; 123; 114; 117; 108; 101; 95; 110; 97; 109; 101; 125], Err ValueError);
    ([123; 115; 116; 97; 114; 116; 95; 99; 111; 108; 125; 91; 123; 115; 116; 97; 114; 116; 95; 108; 105; 110; 101; 125; 123; 115; 116; 97; 114; 116; 95; 99; 111; 108; 33; 115; 58; 125; 97; 48], Ok [48; 91; 45; 51; 48; 97; 48]);
    ([123; 123; 46; 123; 114; 117; 108; 101; 95; 110; 97; 109; 101; 33; 115; 125; 123; 109; 101; 115; 115; 97; 103; 101; 125; 33; 122; 123; 123], Ok [123; 46; 33; 122; 123]);
    ([123; 115; 116; 97; 114; 116; 95; 99; 111; 108; 125; 123; 123; 123; 114; 117; 108; 101; 95; 110; 97; 109; 101; 33; 125; 123; 115], Err ValueError);
    ([123; 112; 97; 116; 104; 125; 123; 115; 116; 97; 114; 116; 95; 108; 105; 110; 101; 125; 123; 115; 116; 97; 114; 116; 95; 108; 105; 110; 101; 33; 115; 125], Ok [47; 45; 51; 45; 51]);
    ([33; 58; 123; 115; 116; 97; 114; 116; 95; 108; 105; 110; 101; 125; 33; 115; 123; 112; 97; 116; 104; 125; 123; 115; 116; 97; 114; 116; 95; 108; 105; 110; 101; 125], Ok [33; 58; 45; 51; 33; 115; 47; 45; 51]);
    ([123; 112; 97; 116; 104; 125; 123; 115; 116; 97; 114; 116; 95; 99; 111; 108; 125; 33; 115; 123; 114; 117; 108; 101; 95; 110; 97; 109; 101; 125; 123; 115; 116; 97; 114; 116; 95; 108; 105; 110; 101; 125], Ok [47; 48; 33; 115; 45; 51]);
    ([123; 115; 116; 97; 114; 116; 95; 108; 105; 110; 101; 33; 115; 125; 123; 115; 116; 97; 114; 116; 95; 108; 105; 110; 101; 33; 115; 58; 125; 46; 58; 123; 115; 116; 97; 114; 116; 95; 99; 111; 108; 125; 123; 112; 97; 116; 104; 58; 125], Ok [45; 51; 45; 51; 46; 58; 48; 47]);
    ([123; 55; 97; 125; 123; 109; 101; 115; 115; 97; 103; 101; 125; 58; 33; 123; 109; 101; 115; 115; 97; 103; 101; 125], Err KeyError);
    ([123; 109; 101; 115; 115; 97; 103; 101; 125; 123; 115; 116; 97; 114; 116; 95; 108; 105; 110; 101; 125], Ok [45; 51]);
    ([123; 115; 116; 97; 114; 116; 95; 108; 105; 110; 101; 33; 115; 58; 125; 123; 112; 97; 116; 104; 125; 123; 109; 101; 115; 115; 97; 103; 101; 123; 48; 125], Err ValueError);
    ([33; 122; 123; 112; 97; 116; 104; 125; 123; 112; 97; 116; 104; 125; 123; 112; 97; 116; 104; 125; 123; 115; 116; 97; 114; 116; 95; 99; 111; 108], Err ValueError);
    ([123; 114; 117; 108; 101; 95; 110; 97; 109; 101; 125; 125; 125; 123; 114; 117; 108; 101; 95; 110; 97; 109; 101; 125; 123], Err ValueError);
    ([97; 123; 112; 97; 116; 104; 33; 122; 125; 123; 112; 97; 116; 104; 125], Err ValueError);
    ([123; 114; 117; 108; 101; 95; 110; 97; 109; 101; 58; 125], Ok []);
    ([123; 114; 117; 108; 101; 95; 110; 97; 109; 101; 33; 122; 125; 125; 125], Err ValueError);
    ([123; 114; 117; 108; 101; 95; 110; 97; 109; 101; 58; 125; 123; 115; 116; 97; 114; 116; 95; 99; 111; 108; 123; 115; 116; 97; 114; 116; 95; 99; 111; 108; 46; 123; 125], Err ValueError);
    ([123; 109; 101; 115; 115; 97; 103; 101; 123; 114; 117; 108; 101; 95; 110; 97; 109; 101], Err ValueError);
    ([33; 122; 123; 115; 116; 97; 114; 116; 95; 99; 111; 108; 125; 115; 125; 125], Ok [33; 122; 48; 115; 125]);
    ([123; 109; 101; 115; 115; 97; 103; 101; 33; 115; 125; 123; 109; 101; 115; 115; 97; 103; 101; 125; 123; 115; 116; 97; 114; 116; 95; 108; 105; 110; 101; 123; 114; 117; 108; 101; 95; 110; 97; 109; 101; 125], Err ValueError);
    ([123; 115; 116; 97; 114; 116; 95; 99; 111; 108; 125; 123; 112; 97; 116; 104; 48; 32], Err ValueError);
    ([123; 112; 97; 116; 104; 125; 123; 115; 116; 97; 114; 116; 95; 99; 111; 108; 125], Ok [47; 48]);
    ([123; 112; 97; 116; 104; 33; 115; 58; 125; 123; 114; 117; 108; 101; 95; 110; 97; 109; 101; 125; 32; 32], Ok [47; 32; 32]);
    ([123; 115; 116; 97; 114; 116; 95; 108; 105; 110; 101; 125; 123; 115; 116; 97; 114; 116; 95; 108; 105; 110; 101; 125; 123; 112; 97; 116; 104], Err ValueError);
    ([123; 109; 101; 115; 115; 97; 103; 101; 123; 109; 101; 115; 115; 97; 103; 101; 33; 122; 125; 123; 125; 97; 123; 115; 116; 97; 114; 116; 95; 108; 105; 110; 101; 33; 122; 125], Err ValueError);
    ([97; 123; 115; 116; 97; 114; 116; 95; 99; 111; 108; 125; 123; 123; 123; 109; 101; 115; 115; 97; 103; 101; 125; 125], Err ValueError);
    ([123; 109; 101; 115; 115; 97; 103; 101; 125; 97], Ok [97]);
    ([123; 112; 97; 116; 104; 32; 91; 91], Err ValueError);
    ([123; 109; 101; 115; 115; 97; 103; 101; 123; 115; 116; 97; 114; 116; 95; 99; 111; 108; 125; 123; 112; 97; 116; 104; 125; 123; 114; 117; 108; 101; 95; 110; 97; 109; 101; 123; 112; 97; 116; 104; 125; 123; 115; 116; 97; 114; 116; 95; 99; 111; 108], Err ValueError);
    ([123; 112; 97; 116; 104; 125; 123; 115; 116; 97; 114; 116; 95; 99; 111; 108; 125; 123; 115; 116; 97; 114; 116; 95; 99; 111; 108; 125; 123; 109; 101; 115; 115; 97; 103; 101; 125; 123; 114; 117; 108; 101; 95; 110; 97; 109; 101; 33; 115; 125], Ok [47; 48; 48]);
    ([32; 33; 122], Ok [32; 33; 122]);
    ([33; 122; 123; 112; 97; 116; 104; 125; 123; 112; 97; 116; 104; 125], Ok [33; 122; 47; 47]);
    ([123; 115; 116; 97; 114; 116; 95; 108; 105; 110; 101; 125; 123; 114; 117; 108; 101; 95; 110; 97; 109; 101; 123; 123; 109; 101; 115; 115; 97; 103; 101; 125; 91], Err ValueError);
    ([123; 109; 101; 115; 115; 97; 103; 101; 125; 123; 112; 97; 116; 104; 125; 33; 115; 123; 114; 117; 108; 101; 95; 110; 97; 109; 101; 125; 123], Err ValueError);
    ([123; 123; 32; 123; 112; 97; 116; 104; 125; 123; 114; 117; 108; 101; 95; 110; 97; 109; 101; 123; 115; 116; 97; 114; 116; 95; 108; 105; 110; 101; 125; 123; 112; 97; 116; 104], Err ValueError);
    ([123; 112; 97; 116; 104; 33; 115; 32; 125; 93; 123; 114; 117; 108; 101; 95; 110; 97; 109; 101; 125; 123; 112; 97; 116; 104; 125; 33; 122; 123; 115; 116; 97; 114; 116; 95; 108; 105; 110; 101; 125], Err ValueError);
    ([123; 112; 97; 116; 104; 125; 123; 115; 116; 97; 114; 116; 95; 108; 105; 110; 101; 123; 114; 117; 108; 101; 95; 110; 97; 109; 101; 123; 115; 116; 97; 114; 116; 95; 99; 111; 108; 125; 123; 109; 101; 115; 115; 97; 103; 101; 125], Err ValueError);
    ([123; 115; 116; 97; 114; 116; 95; 99; 111; 108; 125; 123; 115; 116; 97; 114; 116; 95; 99; 111; 108; 123; 77; 101; 115; 115; 97; 103; 101; 125], Err ValueError);
    ([123; 123; 109; 101; 115; 115; 97; 103; 101; 125; 123; 112; 97; 116; 104; 125], Err ValueError);
    ([91; 48; 123; 77; 101; 115; 115; 97; 103; 101; 125; 123; 115; 116; 97; 114; 116; 95; 108; 105; 110; 101; 125; 123; 77; 101; 115; 115; 97; 103; 101; 125], Err KeyError);
    ([123; 112; 97; 116; 104; 125; 123; 114; 117; 108; 101; 95; 110; 97; 109; 101; 125; 33; 115; 46; 123; 114; 117; 108; 101; 95; 110; 97; 109; 101], Err ValueError);
    ([33; 115; 123; 114; 117; 108; 101; 95; 110; 97; 109; 101], Err ValueError);
    ([123; 115; 116; 97; 114; 116; 95; 99; 111; 108; 125; 123; 109; 101; 115; 115; 97; 103; 101; 125; 123; 115; 116; 97; 114; 116; 95; 108; 105; 110; 101; 125; 123; 115; 116; 97; 114; 116; 95; 99; 111; 108; 125; 33; 115], Ok [48; 45; 51; 48; 33; 115]);
    ([93; 123; 115; 116; 97; 114; 116; 95; 108; 105; 110; 101; 123; 115; 116; 97; 114; 116; 95; 108; 105; 110; 101; 125; 115; 123; 55; 97; 125], Err ValueError);
    ([123; 115; 116; 97; 114; 116; 95; 108; 105; 110; 101; 125; 33; 123; 112; 97; 116; 104; 125; 123; 112; 97; 116; 104; 125; 123; 115; 116; 97; 114; 116; 95; 108; 105; 110; 101; 125; 123; 114; 117; 108; 101; 95; 110; 97; 109; 101; 125], Ok [45; 51; 33; 47; 47; 45; 51]);
    ([123; 115; 116; 97; 114; 116; 95; 99; 111; 108; 125; 97; 123; 115; 116; 97; 114; 116; 95; 99; 111; 108; 33; 115; 58; 125; 125], Err ValueError);
    ([123; 115; 116; 97; 114; 116; 95; 99; 111; 108; 123; 91; 123; 112; 97; 116; 104; 33; 125; 58], Err ValueError);
    ([123; 115; 116; 97; 114; 116; 95; 108; 105; 110; 101; 123; 112; 97; 116; 104; 125; 123; 48; 125; 123; 55; 97; 125; 123; 115; 116; 97; 114; 116; 95; 99; 111; 108; 125], Err ValueError);
    ([123; 115; 116; 97; 114; 116; 95; 108; 105; 110; 101; 33; 115; 58; 125; 123; 55; 97; 125], Err KeyError);
    ([48; 123; 115; 116; 97; 114; 116; 95; 108; 105; 110; 101; 125; 33; 122; 58; 123; 115; 116; 97; 114; 116; 95; 99; 111; 108; 125; 123; 48; 125], Err IndexError);
    ([33; 123; 115; 116; 97; 114; 116; 95; 99; 111; 108; 33; 122; 125; 123; 115; 116; 97; 114; 116; 95; 108; 105; 110; 101; 33; 115; 125; 123; 115; 116; 97; 114; 116; 95; 108; 105; 110; 101; 123; 112; 97; 116; 104; 33; 115; 125], Err ValueError);
    ([123; 114; 117; 108; 101; 95; 110; 97; 109; 101; 125; 123; 123; 114; 117; 108; 101; 95; 110; 97; 109; 101; 48; 123; 115; 116; 97; 114; 116; 95; 99; 111; 108; 125; 123; 115; 116; 97; 114; 116; 95; 99; 111; 108; 125], Ok [123; 114; 117; 108; 101; 95; 110; 97; 109; 101; 48; 48; 48]);
    ([123; 77; 101; 115; 115; 97; 103; 101; 125; 97; 123; 109; 101; 115; 115; 97; 103; 101; 125], Err KeyError);
    ([123; 115; 116; 97; 114; 116; 95; 99; 111; 108; 33; 115; 32; 125; 123; 115; 116; 97; 114; 116; 95; 99; 111; 108; 125; 123; 125; 123; 115; 116; 97; 114; 116; 95; 99; 111; 108; 125], Err ValueError);
    ([123; 109; 101; 115; 115; 97; 103; 101; 125; 123; 112; 97; 116; 104; 125; 123; 114; 117; 108; 101; 95; 110; 97; 109; 101; 125], Ok [47]);
    ([123; 109; 101; 115; 115; 97; 103; 101; 33; 115; 125; 123; 115; 116; 97; 114; 116; 95; 108; 105; 110; 101; 125; 123; 109; 101; 115; 115; 97; 103; 101; 125; 123; 115; 116; 97; 114; 116; 95; 99; 111; 108; 125; 123; 77; 101; 115; 115; 97; 103; 101; 125], Err KeyError);
    ([123; 109; 101; 115; 115; 97; 103; 101; 125; 125; 125; 123; 115; 116; 97; 114; 116; 95; 108; 105; 110; 101; 125; 123; 114; 117; 108; 101; 95; 110; 97; 109; 101; 125; 91], Ok [125; 45; 51; 91]);
    ([123; 115; 116; 97; 114; 116; 95; 99; 111; 108; 125; 33; 122; 33; 115; 125; 125], Ok [48; 33; 122; 33; 115; 125]);
    ([115; 125; 125; 123; 109; 101; 115; 115; 97; 103; 101; 125; 125; 123; 112; 97; 116; 104; 33], Err ValueError);
    ([123; 114; 117; 108; 101; 95; 110; 97; 109; 101; 125; 123; 115; 116; 97; 114; 116; 95; 99; 111; 108; 33; 115; 58; 125; 33; 115], Ok [48; 33; 115]);
    ([123; 115; 116; 97; 114; 116; 95; 99; 111; 108; 125; 32; 123; 115; 116; 97; 114; 116; 95; 99; 111; 108; 125; 123; 115; 116; 97; 114; 116; 95; 108; 105; 110; 101; 125], Ok [48; 32; 48; 45; 51]);
    ([33; 115; 33; 123; 123; 115; 116; 97; 114; 116; 95; 108; 105; 110; 101; 125; 123; 115; 116; 97; 114; 116; 95; 108; 105; 110; 101], Err ValueError);
    ([123; 114; 117; 108; 101; 95; 110; 97; 109; 101; 123; 109; 101; 115; 115; 97; 103; 101; 123; 77; 101; 115; 115; 97; 103; 101; 125; 123; 114; 117; 108; 101; 95; 110; 97; 109; 101; 125], Err ValueError);
    ([33; 115; 123; 114; 117; 108; 101; 95; 110; 97; 109; 101; 125; 123; 109; 101; 115; 115; 97; 103; 101; 125; 123; 112; 97; 116; 104; 33; 115; 32; 125], Err ValueError);
    ([123; 109; 101; 115; 115; 97; 103; 101; 33; 115; 32; 125; 123; 125; 123; 115; 116; 97; 114; 116; 95; 99; 111; 108; 125], Err ValueError);
    ([125; 125; 123; 110; 111; 112; 101; 125; 91; 123; 115; 116; 97; 114; 116; 95; 108; 105; 110; 101; 125; 123; 109; 101; 115; 115; 97; 103; 101; 125], Err KeyError);
    ([123; 115; 116; 97; 114; 116; 95; 108; 105; 110; 101; 125; 123; 55; 97; 125], Err KeyError);
    ([91; 115; 123; 77; 101; 115; 115; 97; 103; 101; 125; 123; 112; 97; 116; 104; 58; 125; 48; 32], Err KeyError);
    ([123; 115; 116; 97; 114; 116; 95; 108; 105; 110; 101; 123; 114; 117; 108; 101; 95; 110; 97; 109; 101; 125; 123; 115; 116; 97; 114; 116; 95; 108; 105; 110; 101; 125; 123; 115; 116; 97; 114; 116; 95; 99; 111; 108; 125; 115], Err ValueError);
    ([123; 109; 101; 115; 115; 97; 103; 101; 125; 58], Ok [58]);
    ([123; 115; 116; 97; 114; 116; 95; 99; 111; 108; 125; 123; 115; 116; 97; 114; 116; 95; 108; 105; 110; 101; 125; 48; 123; 115; 116; 97; 114; 116; 95; 108; 105; 110; 101; 125], Ok [48; 45; 51; 48; 45; 51]);
    ([123; 115; 116; 97; 114; 116; 95; 99; 111; 108; 123; 115; 116; 97; 114; 116; 95; 99; 111; 108; 33; 125; 58; 123; 114; 117; 108; 101; 95; 110; 97; 109; 101; 125; 123; 115; 116; 97; 114; 116; 95; 108; 105; 110; 101; 33; 125; 123; 114; 117; 108; 101; 95; 110; 97; 109; 101; 58; 125], Err ValueError);
    ([33; 122; 123; 123; 123; 109; 101; 115; 115; 97; 103; 101; 125], Ok [33; 122; 123]);
    ([123; 109; 101; 115; 115; 97; 103; 101; 125; 123; 123; 123; 114; 117; 108; 101; 95; 110; 97; 109; 101; 125; 123; 115; 116; 97; 114; 116; 95; 108; 105; 110; 101; 125; 97; 32], Ok [123; 45; 51; 97; 32]);
    ([48; 123; 115; 116; 97; 114; 116; 95; 99; 111; 108; 33; 115; 58; 125; 33; 32; 123; 114; 117; 108; 101; 95; 110; 97; 109; 101; 125], Ok [48; 48; 33; 32]);
    ([91; 123; 115; 116; 97; 114; 116; 95; 99; 111; 108; 33; 115; 32; 125; 123; 115; 116; 97; 114; 116; 95; 108; 105; 110; 101; 125; 123; 123; 123; 115; 116; 97; 114; 116; 95; 108; 105; 110; 101], Err ValueError);
    ([123; 48; 125; 123; 125; 33; 122; 97; 123; 114; 117; 108; 101; 95; 110; 97; 109; 101; 123; 115; 116; 97; 114; 116; 95; 99; 111; 108; 125], Err IndexError);
    ([123; 48; 125; 123; 115; 116; 97; 114; 116; 95; 99; 111; 108], Err IndexError);
    ([125; 125; 123; 109; 101; 115; 115; 97; 103; 101; 125], Ok [125]);
    ([123; 115; 116; 97; 114; 116; 95; 99; 111; 108; 123; 123; 93; 123; 114; 117; 108; 101; 95; 110; 97; 109; 101; 125; 46; 123; 115; 116; 97; 114; 116; 95; 99; 111; 108; 125], Err ValueError);
    ([123; 109; 101; 115; 115; 97; 103; 101; 33; 115; 32; 125; 123; 114; 117; 108; 101; 95; 110; 97; 109; 101; 125; 123; 115; 116; 97; 114; 116; 95; 99; 111; 108; 33; 115; 125; 123; 114; 117; 108; 101; 95; 110; 97; 109; 101; 125; 123; 112; 97; 116; 104; 125; 123; 109; 101; 115; 115; 97; 103; 101; 33; 115; 58; 125], Err ValueError);
    ([123; 112; 97; 116; 104; 125; 123; 112; 97; 116; 104; 58; 125; 97], Ok [47; 47; 97]);
    ([32; 123; 125; 123; 109; 101; 115; 115; 97; 103; 101], Err IndexError);
    ([123; 115; 116; 97; 114; 116; 95; 99; 111; 108; 58; 125; 123; 123; 110; 111; 112; 101; 125; 123; 123; 58], Err ValueError);
    ([123; 123; 123; 115; 116; 97; 114; 116; 95; 99; 111; 108; 33; 115; 125], Ok [123; 48]);
    ([123; 114; 117; 108; 101; 95; 110; 97; 109; 101; 123; 112; 97; 116; 104; 125; 123; 109; 101; 115; 115; 97; 103; 101; 125], Err ValueError);
    ([48; 123; 110; 111; 112; 101; 125; 93], Err KeyError);
    ([123; 112; 97; 116; 104; 33; 115; 125; 123; 109; 101; 115; 115; 97; 103; 101; 33; 115; 58; 125], Ok [47]);
    ([32; 125], Err ValueError);
    ([123; 115; 116; 97; 114; 116; 95; 99; 111; 108; 125; 123; 115; 116; 97; 114; 116; 95; 99; 111; 108; 125; 33; 122; 33; 123; 109; 101; 115; 115; 97; 103; 101; 33; 115; 32; 125], Err ValueError);
    ([123; 109; 101; 115; 115; 97; 103; 101; 33; 115; 32; 125], Err ValueError);
    ([123; 112; 97; 116; 104; 33; 115; 33; 33; 122], Err ValueError);
    ([91; 123; 109; 101; 115; 115; 97; 103; 101; 125], Ok [91]);
    ([33; 115; 123; 115; 116; 97; 114; 116; 95; 108; 105; 110; 101; 58; 125], Ok [33; 115; 45; 51]);
    ([123; 48; 125; 123; 114; 117; 108; 101; 95; 110; 97; 109; 101; 125; 123; 114; 117; 108; 101; 95; 110; 97; 109; 101; 123; 115; 116; 97; 114; 116; 95; 99; 111; 108; 125], Err IndexError);
    ([123; 109; 101; 115; 115; 97; 103; 101; 33; 122; 125], Err ValueError);
    ([123; 109; 101; 115; 115; 97; 103; 101; 123; 109; 101; 115; 115; 97; 103; 101; 123; 115; 116; 97; 114; 116; 95; 108; 105; 110; 101], Err ValueError);
    ([123; 114; 117; 108; 101; 95; 110; 97; 109; 101; 33; 122; 125; 125; 125; 33; 115; 123; 115; 116; 97; 114; 116; 95; 108; 105; 110; 101; 58; 125; 46; 123; 123], Err ValueError);
    ([48; 46; 123; 115; 116; 97; 114; 116; 95; 108; 105; 110; 101; 115], Err ValueError);
    ([123; 115; 116; 97; 114; 116; 95; 99; 111; 108; 58; 125; 123; 123; 123; 115; 116; 97; 114; 116; 95; 108; 105; 110; 101; 125; 123; 123], Ok [48; 123; 45; 51; 123]);
    ([33; 123; 115; 116; 97; 114; 116; 95; 99; 111; 108; 58; 123; 115; 116; 97; 114; 116; 95; 99; 111; 108; 125; 123; 109; 101; 115; 115; 97; 103; 101], Err ValueError);
    ([115; 123; 123; 123; 110; 111; 112; 101; 125; 123; 115; 116; 97; 114; 116; 95; 108; 105; 110; 101; 125; 123; 112; 97; 116; 104; 125], Err KeyError);
    ([123; 55; 97; 125; 123; 112; 97; 116; 104; 125], Err KeyError);
    ([123; 109; 101; 115; 115; 97; 103; 101; 125; 33; 93], Ok [33; 93]);
    ([123; 123; 93; 123; 114; 117; 108; 101; 95; 110; 97; 109; 101; 33], Err ValueError);
    ([123; 115; 116; 97; 114; 116; 95; 108; 105; 110; 101; 125; 123; 112; 97; 116; 104; 125; 123; 123; 123; 115; 116; 97; 114; 116; 95; 108; 105; 110; 101; 125; 123; 109; 101; 115; 115; 97; 103; 101; 125; 46], Ok [45; 51; 47; 123; 45; 51; 46]);
    ([123; 109; 101; 115; 115; 97; 103; 101; 123; 109; 101; 115; 115; 97; 103; 101; 33; 115; 32; 125; 125; 125; 123; 115; 116; 97; 114; 116; 95; 99; 111; 108; 125; 125; 125; 123; 115; 116; 97; 114; 116; 95; 99; 111; 108; 58; 125], Err ValueError);
    ([97; 123; 112; 97; 116; 104; 125], Ok [97; 47]);
    ([48; 123; 112; 97; 116; 104; 58; 125; 123; 110; 111; 112; 101; 125; 32], Err KeyError);
    ([93; 123; 115; 116; 97; 114; 116; 95; 99; 111; 108; 123; 109; 101; 115; 115; 97; 103; 101; 123; 55; 97; 125; 123; 114; 117; 108; 101; 95; 110; 97; 109; 101; 125], Err ValueError);
    ([123; 112; 97; 116; 104; 33; 115; 58; 125; 123; 115; 116; 97; 114; 116; 95; 99; 111; 108; 33; 115; 58; 125; 33; 91; 93], Ok [47; 48; 33; 91; 93]);
    ([33; 122; 123; 123; 46; 123; 112; 97; 116; 104; 33; 115; 58; 125; 32], Ok [33; 122; 123; 46; 47; 32]);
    ([123; 109; 101; 115; 115; 97; 103; 101; 125; 123; 109; 101; 115; 115; 97; 103; 101; 125; 93; 97; 123; 109; 101; 115; 115; 97; 103; 101; 125; 33; 115], Ok [93; 97; 33; 115]);
    ([123; 115; 116; 97; 114; 116; 95; 99; 111; 108; 125; 123; 112; 97; 116; 104; 58; 125; 91; 33; 122; 33; 115; 123; 115; 116; 97; 114; 116; 95; 108; 105; 110; 101], Err ValueError);
    ([123; 115; 116; 97; 114; 116; 95; 99; 111; 108; 125; 123; 115; 116; 97; 114; 116; 95; 99; 111; 108; 125; 123; 114; 117; 108; 101; 95; 110; 97; 109; 101; 123; 115; 116; 97; 114; 116; 95; 99; 111; 108; 125; 123; 112; 97; 116; 104; 125], Err ValueError);
    ([123; 115; 116; 97; 114; 116; 95; 99; 111; 108; 33; 122; 48; 48; 123; 109; 101; 115; 115; 97; 103; 101; 125], Err ValueError);
    ([123; 112; 97; 116; 104; 33; 115; 125; 32; 123; 115; 116; 97; 114; 116; 95; 99; 111; 108; 125], Ok [47; 32; 48]);
    ([33; 122; 123; 48; 125; 123; 109; 101; 115; 115; 97; 103; 101; 125; 123; 115; 116; 97; 114; 116; 95; 99; 111; 108; 125; 33], Err IndexError);
    ([123; 114; 117; 108; 101; 95; 110; 97; 109; 101; 125; 123; 112; 97; 116; 104; 33; 122; 125; 32; 123; 115; 116; 97; 114; 116; 95; 99; 111; 108; 125; 123; 114; 117; 108; 101; 95; 110; 97; 109; 101; 125], Err ValueError);
    ([123; 109; 101; 115; 115; 97; 103; 101; 125; 123; 125; 32; 58; 123; 109; 101; 115; 115; 97; 103; 101; 125; 123; 112; 97; 116; 104], Err IndexError);
    ([123; 125; 123; 115; 116; 97; 114; 116; 95; 108; 105; 110; 101; 123; 115; 116; 97; 114; 116; 95; 99; 111; 108; 125; 123; 115; 116; 97; 114; 116; 95; 108; 105; 110; 101; 58; 125; 123; 109; 101; 115; 115; 97; 103; 101; 58; 125; 123; 115; 116; 97; 114; 116; 95; 99; 111; 108; 125], Err IndexError);
    ([123; 115; 116; 97; 114; 116; 95; 108; 105; 110; 101; 125; 123; 112; 97; 116; 104; 123; 114; 117; 108; 101; 95; 110; 97; 109; 101; 33; 115; 125; 123; 114; 117; 108; 101; 95; 110; 97; 109; 101], Err ValueError);
    ([123; 115; 116; 97; 114; 116; 95; 99; 111; 108; 125; 123; 91; 123; 115; 116; 97; 114; 116; 95; 99; 111; 108; 33; 122; 125; 123; 115; 116; 97; 114; 116; 95; 108; 105; 110; 101; 125; 123; 114; 117; 108; 101; 95; 110; 97; 109; 101; 33; 115; 125], Err ValueError);
    ([123; 115; 116; 97; 114; 116; 95; 108; 105; 110; 101; 123; 115; 116; 97; 114; 116; 95; 99; 111; 108; 123; 114; 117; 108; 101; 95; 110; 97; 109; 101; 123; 109; 101; 115; 115; 97; 103; 101; 33; 122; 125], Err ValueError);
    ([123; 112; 97; 116; 104; 33; 122; 125; 123; 109; 101; 115; 115; 97; 103; 101; 125; 123; 115; 116; 97; 114; 116; 95; 99; 111; 108; 125; 123; 115; 116; 97; 114; 116; 95; 99; 111; 108; 125; 93], Err ValueError);
    ([123; 115; 116; 97; 114; 116; 95; 108; 105; 110; 101; 125; 123; 112; 97; 116; 104; 125; 33; 123; 123], Ok [45; 51; 47; 33; 123]);
    ([123; 115; 116; 97; 114; 116; 95; 108; 105; 110; 101; 125; 123; 115; 116; 97; 114; 116; 95; 108; 105; 110; 101; 125; 123; 112; 97; 116; 104; 125; 48; 125; 125], Ok [45; 51; 45; 51; 47; 48; 125]);
    ([33; 122; 93; 123; 112; 97; 116; 104; 125], Ok [33; 122; 93; 47]);
    ([123; 109; 101; 115; 115; 97; 103; 101; 125; 123; 114; 117; 108; 101; 95; 110; 97; 109; 101; 125; 123; 109; 101; 115; 115; 97; 103; 101; 123; 123], Err ValueError);
    ([123; 115; 116; 97; 114; 116; 95; 108; 105; 110; 101; 125; 123; 123; 115; 116; 97; 114; 116; 95; 99; 111; 108; 33; 115; 58; 125], Err ValueError);
    ([123; 109; 101; 115; 115; 97; 103; 101; 125; 33; 115], Ok [33; 115]);
    ([123; 115; 116; 97; 114; 116; 95; 99; 111; 108; 125; 33; 115; 33; 115; 123; 114; 117; 108; 101; 95; 110; 97; 109; 101; 58; 125], Ok [48; 33; 115; 33; 115]);
    ([123; 112; 97; 116; 104; 125; 123; 112; 97; 116; 104; 33; 122; 125; 123; 114; 117; 108; 101; 95; 110; 97; 109; 101; 33; 115; 32; 125], Err ValueError);
    ([123; 115; 116; 97; 114; 116; 95; 99; 111; 108; 33; 115; 32; 125; 123; 115; 116; 97; 114; 116; 95; 99; 111; 108; 125; 91; 32; 123; 115; 116; 97; 114; 116; 95; 108; 105; 110; 101; 123; 115; 116; 97; 114; 116; 95; 108; 105; 110; 101; 33; 115; 58; 125], Err ValueError);
    ([123; 115; 116; 97; 114; 116; 95; 99; 111; 108; 58; 125; 123; 112; 97; 116; 104; 125; 115; 123; 55; 97; 125; 123; 115; 116; 97; 114; 116; 95; 99; 111; 108; 125; 125], Err KeyError);
    ([91; 123; 123; 123; 115; 116; 97; 114; 116; 95; 108; 105; 110; 101; 123; 115; 116; 97; 114; 116; 95; 99; 111; 108; 125; 123; 115; 116; 97; 114; 116; 95; 99; 111; 108; 125], Err ValueError);
    ([123; 115; 116; 97; 114; 116; 95; 108; 105; 110; 101; 33; 115; 125; 123; 112; 97; 116; 104], Err ValueError);
    ([123; 109; 101; 115; 115; 97; 103; 101; 125; 123; 109; 101; 115; 115; 97; 103; 101; 125; 123; 115; 116; 97; 114; 116; 95; 108; 105; 110; 101; 125; 123; 115; 116; 97; 114; 116; 95; 99; 111; 108; 125; 123; 114; 117; 108; 101; 95; 110; 97; 109; 101; 125; 123; 112; 97; 116; 104; 125], Ok [45; 51; 48; 47]);
    ([123; 115; 116; 97; 114; 116; 95; 108; 105; 110; 101; 125; 33; 123; 112; 97; 116; 104; 125; 123; 115; 116; 97; 114; 116; 95; 108; 105; 110; 101; 125; 58; 123; 109; 101; 115; 115; 97; 103; 101; 125], Ok [45; 51; 33; 47; 45; 51; 58]);
    ([97; 123; 115; 116; 97; 114; 116; 95; 108; 105; 110; 101; 125; 123; 114; 117; 108; 101; 95; 110; 97; 109; 101; 125; 123; 115; 116; 97; 114; 116; 95; 108; 105; 110; 101; 33; 115; 32; 125], Err ValueError);
    ([58; 123; 115; 116; 97; 114; 116; 95; 108; 105; 110; 101; 125; 123; 109; 101; 115; 115; 97; 103; 101; 125; 97; 123; 112; 97; 116; 104; 125], Ok [58; 45; 51; 97; 47]);
    ([123; 112; 97; 116; 104; 125; 123; 115; 116; 97; 114; 116; 95; 108; 105; 110; 101; 123; 112; 97; 116; 104; 125; 123; 114; 117; 108; 101; 95; 110; 97; 109; 101; 125], Err ValueError);
    ([32; 123; 114; 117; 108; 101; 95; 110; 97; 109; 101; 125; 123; 114; 117; 108; 101; 95; 110; 97; 109; 101; 125; 123; 115; 116; 97; 114; 116; 95; 108; 105; 110; 101; 123; 109; 101; 115; 115; 97; 103; 101; 125; 93], Err ValueError);
    ([123; 123; 123; 114; 117; 108; 101; 95; 110; 97; 109; 101; 123; 115; 116; 97; 114; 116; 95; 108; 105; 110; 101; 125; 97; 93], Err ValueError);
    ([123; 114; 117; 108; 101; 95; 110; 97; 109; 101; 125; 115], Ok [115]);
    ([123; 114; 117; 108; 101; 95; 110; 97; 109; 101; 125; 123; 115; 116; 97; 114; 116; 95; 99; 111; 108; 125; 123; 109; 101; 115; 115; 97; 103; 101; 125; 115; 123; 115; 116; 97; 114; 116; 95; 108; 105; 110; 101; 125], Ok [48; 115; 45; 51]);
    ([123; 114; 117; 108; 101; 95; 110; 97; 109; 101; 125; 33; 122; 123; 115; 116; 97; 114; 116; 95; 99; 111; 108; 123; 114; 117; 108; 101; 95; 110; 97; 109; 101; 125; 123; 112; 97; 116; 104], Err ValueError);
    ([123; 123; 112; 97; 116; 104; 125; 123; 115; 116; 97; 114; 116; 95; 99; 111; 108; 125; 33; 115; 125; 125; 123; 77; 101; 115; 115; 97; 103; 101; 125], Err ValueError);
    ([33; 115; 125; 125; 125], Err ValueError);
    ([123; 109; 101; 115; 115; 97; 103; 101; 125; 123; 112; 97; 116; 104; 125; 123; 115; 116; 97; 114; 116; 95; 99; 111; 108; 125], Ok [47; 48]);
    ([123; 112; 97; 116; 104; 125; 32; 123; 109; 101; 115; 115; 97; 103; 101; 125; 123; 114; 117; 108; 101; 95; 110; 97; 109; 101; 125; 123; 115; 116; 97; 114; 116; 95; 99; 111; 108; 97], Err ValueError);
    ([123; 114; 117; 108; 101; 95; 110; 97; 109; 101; 125; 123; 114; 117; 108; 101; 95; 110; 97; 109; 101; 125; 123], Err ValueError);
    ([123; 114; 117; 108; 101; 95; 110; 97; 109; 101; 125; 123; 115; 116; 97; 114; 116; 95; 108; 105; 110; 101; 125; 125; 123; 114; 117; 108; 101; 95; 110; 97; 109; 101; 125; 123; 112; 97; 116; 104; 125], Err ValueError);
    ([58; 123; 115; 116; 97; 114; 116; 95; 108; 105; 110; 101; 125; 125; 125], Ok [58; 45; 51; 125]);
    ([123; 115; 116; 97; 114; 116; 95; 108; 105; 110; 101; 125; 123; 114; 117; 108; 101; 95; 110; 97; 109; 101; 125; 93; 125; 125; 123; 109; 101; 115; 115; 97; 103; 101; 125], Ok [45; 51; 93; 125]);
    ([123; 112; 97; 116; 104; 125; 48; 33; 123; 93], Err ValueError);
    ([123; 115; 116; 97; 114; 116; 95; 108; 105; 110; 101; 125; 123; 110; 111; 112; 101; 125; 123; 109; 101; 115; 115; 97; 103; 101], Err KeyError);
    ([125; 125; 123; 114; 117; 108; 101; 95; 110; 97; 109; 101; 125; 46; 123; 115; 116; 97; 114; 116; 95; 99; 111; 108; 125], Ok [125; 46; 48]);
    ([123; 115; 116; 97; 114; 116; 95; 99; 111; 108; 125; 33; 115; 123; 114; 117; 108; 101; 95; 110; 97; 109; 101; 125; 97; 123; 109; 101; 115; 115; 97; 103; 101; 125; 123; 115; 116; 97; 114; 116; 95; 108; 105; 110; 101; 33; 125], Err ValueError);
    ([123; 115; 116; 97; 114; 116; 95; 108; 105; 110; 101; 123; 115; 116; 97; 114; 116; 95; 99; 111; 108; 125], Err ValueError);
    ([33; 33; 122; 123; 114; 117; 108; 101; 95; 110; 97; 109; 101; 125; 123; 112; 97; 116; 104], Err ValueError);
    ([32; 123; 115; 116; 97; 114; 116; 95; 99; 111; 108; 125; 32], Ok [32; 48; 32]);
    ([123; 55; 97; 125; 91; 123; 114; 117; 108; 101; 95; 110; 97; 109; 101], Err KeyError);
    ([48; 123; 109; 101; 115; 115; 97; 103; 101; 125; 123; 123], Ok [48; 123]);
    ([123; 112; 97; 116; 104; 125; 123; 114; 117; 108; 101; 95; 110; 97; 109; 101; 125; 46; 91; 123; 109; 101; 115; 115; 97; 103; 101; 58; 125; 46], Ok [47; 46; 91; 46]);
    ([123; 48; 125; 32; 123; 125; 123; 114; 117; 108; 101; 95; 110; 97; 109; 101; 33; 115; 32; 125], Err IndexError);
    ([91; 32; 123; 114; 117; 108; 101; 95; 110; 97; 109; 101; 125; 46], Ok [91; 32; 46]);
    ([32; 58; 123; 109; 101; 115; 115; 97; 103; 101; 125; 123; 112; 97; 116; 104; 125], Ok [32; 58; 47]);
    ([123; 109; 101; 115; 115; 97; 103; 101; 33; 115; 32; 125; 123; 112; 97; 116; 104; 125; 123; 109; 101; 115; 115; 97; 103; 101; 33; 115; 32; 125], Err ValueError);
    ([33; 115; 123; 112; 97; 116; 104; 125; 123; 115; 116; 97; 114; 116; 95; 108; 105; 110; 101; 58; 125], Ok [33; 115; 47; 45; 51]);
    ([123; 114; 117; 108; 101; 95; 110; 97; 109; 101; 125; 125; 123; 114; 117; 108; 101; 95; 110; 97; 109; 101; 33; 125; 125; 123; 109; 101; 115; 115; 97; 103; 101; 125; 58], Err ValueError);
    ([58; 33; 122; 123; 114; 117; 108; 101; 95; 110; 97; 109; 101; 125; 123; 115; 116; 97; 114; 116; 95; 99; 111; 108; 125; 33; 115; 115], Ok [58; 33; 122; 48; 33; 115; 115]);
    ([32; 123; 112; 97; 116; 104; 125; 123; 112; 97; 116; 104; 125; 123; 115; 116; 97; 114; 116; 95; 108; 105; 110; 101; 125], Ok [32; 47; 47; 45; 51]);
    ([48; 123; 115; 116; 97; 114; 116; 95; 108; 105; 110; 101; 125; 97; 91; 123; 115; 116; 97; 114; 116; 95; 99; 111; 108; 33; 125; 93], Err ValueError);
    ([58; 123; 115; 116; 97; 114; 116; 95; 108; 105; 110; 101; 125; 93], Ok [58; 45; 51; 93]);
    ([32; 125; 123; 109; 101; 115; 115; 97; 103; 101; 125], Err ValueError);
    ([123; 115; 116; 97; 114; 116; 95; 99; 111; 108; 33; 115; 32; 125; 123; 123], Err ValueError);
    ([123; 114; 117; 108; 101; 95; 110; 97; 109; 101; 125; 123; 114; 117; 108; 101; 95; 110; 97; 109; 101; 125; 123; 109; 101; 115; 115; 97; 103; 101], Err ValueError);
    ([123; 114; 117; 108; 101; 95; 110; 97; 109; 101; 33; 125; 91; 125; 123; 77; 101; 115; 115; 97; 103; 101; 125; 123; 114; 117; 108; 101; 95; 110; 97; 109; 101; 33; 115; 58; 125], Err ValueError);
    ([97; 125; 123; 77; 101; 115; 115; 97; 103; 101; 125], Err ValueError);
    ([48; 123; 112; 97; 116; 104; 125; 125; 123], Err ValueError);
    ([123; 123; 123; 109; 101; 115; 115; 97; 103; 101; 123; 33; 115; 48; 97], Err ValueError);
    ([123; 115; 116; 97; 114; 116; 95; 108; 105; 110; 101; 125; 32; 123; 115; 116; 97; 114; 116; 95; 108; 105; 110; 101; 125], Ok [45; 51; 32; 45; 51]);
    ([115; 32; 123; 109; 101; 115; 115; 97; 103; 101; 58; 125; 123; 114; 117; 108; 101; 95; 110; 97; 109; 101; 125; 123; 55; 97; 125; 125; 125], Err KeyError);
    ([32; 123; 109; 101; 115; 115; 97; 103; 101; 125; 123; 109; 101; 115; 115; 97; 103; 101; 58; 125; 123; 114; 117; 108; 101; 95; 110; 97; 109; 101; 125; 123; 112; 97; 116; 104; 125; 93], Ok [32; 47; 93]);
    ([33; 122; 46; 123; 109; 101; 115; 115; 97; 103; 101; 33; 125], Err ValueError);
    ([123; 77; 101; 115; 115; 97; 103; 101; 125; 125; 97; 123; 109; 101; 115; 115; 97; 103; 101; 125; 46], Err KeyError);
    ([123; 114; 117; 108; 101; 95; 110; 97; 109; 101; 125; 123; 112; 97; 116; 104; 125], Ok [47]);
    ([123; 112; 97; 116; 104; 33; 122; 125; 125; 125; 123; 110; 111; 112; 101; 125; 123; 115; 116; 97; 114; 116; 95; 108; 105; 110; 101; 125; 123; 109; 101; 115; 115; 97; 103; 101; 123; 115; 116; 97; 114; 116; 95; 99; 111; 108; 33; 115; 125], Err ValueError);
    ([123; 115; 116; 97; 114; 116; 95; 99; 111; 108; 58; 125; 123; 115; 116; 97; 114; 116; 95; 99; 111; 108; 123; 48; 125], Err ValueError);
    ([123; 115; 116; 97; 114; 116; 95; 99; 111; 108; 33; 125; 97; 123; 115; 116; 97; 114; 116; 95; 108; 105; 110; 101; 125; 123; 115; 116; 97; 114; 116; 95; 99; 111; 108; 33; 115; 32; 125], Err ValueError);
    ([123; 115; 116; 97; 114; 116; 95; 99; 111; 108; 125; 93; 123; 77; 101; 115; 115; 97; 103; 101; 125; 123; 48; 125; 123; 115; 116; 97; 114; 116; 95; 108; 105; 110; 101; 33; 122; 125; 93], Err KeyError);
    ([123; 112; 97; 116; 104; 125; 123; 112; 97; 116; 104; 125; 115; 33; 115], Ok [47; 47; 115; 33; 115]);
    ([58; 123; 115; 116; 97; 114; 116; 95; 99; 111; 108; 125; 123; 115; 116; 97; 114; 116; 95; 108; 105; 110; 101; 123; 112; 97; 116; 104], Err ValueError);
    ([123; 115; 116; 97; 114; 116; 95; 108; 105; 110; 101; 125; 48; 48; 123; 114; 117; 108; 101; 95; 110; 97; 109; 101; 33; 125; 33; 115], Err ValueError);
    ([123; 112; 97; 116; 104; 33; 115; 125; 123; 112; 97; 116; 104; 123; 55; 97; 125], Err ValueError);
    ([115; 33; 122; 123; 114; 117; 108; 101; 95; 110; 97; 109; 101; 125; 123; 115; 116; 97; 114; 116; 95; 108; 105; 110; 101; 125], Ok [115; 33; 122; 45; 51]);
    ([32; 123; 114; 117; 108; 101; 95; 110; 97; 109; 101; 33; 125; 123; 112; 97; 116; 104; 125; 123; 48; 125], Err ValueError);
    ([123; 115; 116; 97; 114; 116; 95; 108; 105; 110; 101; 125; 46; 58; 123; 109; 101; 115; 115; 97; 103; 101; 123; 115; 116; 97; 114; 116; 95; 99; 111; 108], Err ValueError);
    ([115; 123; 114; 117; 108; 101; 95; 110; 97; 109; 101], Err ValueError);
    ([123; 123; 115; 116; 97; 114; 116; 95; 99; 111; 108; 125; 123; 115; 116; 97; 114; 116; 95; 108; 105; 110; 101; 125; 123; 115; 116; 97; 114; 116; 95; 108; 105; 110; 101; 125; 123; 55; 97; 125], Err ValueError);
    ([123; 115; 116; 97; 114; 116; 95; 108; 105; 110; 101; 33; 115; 32; 125], Err ValueError);
    ([125; 125; 123; 115; 116; 97; 114; 116; 95; 99; 111; 108; 125; 123; 109; 101; 115; 115; 97; 103; 101], Err ValueError);
    ([91; 93; 123; 112; 97; 116; 104; 125; 123; 114; 117; 108; 101; 95; 110; 97; 109; 101; 125; 33; 122], Ok [91; 93; 47; 33; 122]);
    ([48; 58], Ok [48; 58]);
    ([123; 114; 117; 108; 101; 95; 110; 97; 109; 101; 97; 48; 93; 123; 77; 101; 115; 115; 97; 103; 101; 125], Err ValueError);
    ([123; 115; 116; 97; 114; 116; 95; 99; 111; 108; 125; 33; 122; 123; 115; 116; 97; 114; 116; 95; 99; 111; 108; 32; 123; 115; 116; 97; 114; 116; 95; 99; 111; 108; 125; 123; 109; 101; 115; 115; 97; 103; 101; 58; 125], Err ValueError);
    ([123; 114; 117; 108; 101; 95; 110; 97; 109; 101; 123; 109; 101; 115; 115; 97; 103; 101; 33; 115; 125; 123; 114; 117; 108; 101; 95; 110; 97; 109; 101; 123; 115; 116; 97; 114; 116; 95; 99; 111; 108; 125; 123; 114; 117; 108; 101; 95; 110; 97; 109; 101], Err ValueError);
    ([123; 115; 116; 97; 114; 116; 95; 108; 105; 110; 101; 125; 115; 123; 109; 101; 115; 115; 97; 103; 101; 33; 115; 125; 123; 115; 116; 97; 114; 116; 95; 108; 105; 110; 101; 125; 32; 93], Ok [45; 51; 115; 45; 51; 32; 93]);
    ([123; 112; 97; 116; 104; 125; 33; 115; 123; 112; 97; 116; 104; 125; 123; 115; 116; 97; 114; 116; 95; 108; 105; 110; 101; 125; 123; 115; 116; 97; 114; 116; 95; 108; 105; 110; 101; 125], Ok [47; 33; 115; 47; 45; 51; 45; 51]);
    ([48; 115], Ok [48; 115]);
    ([123; 115; 116; 97; 114; 116; 95; 108; 105; 110; 101; 123; 48; 125; 123; 109; 101; 115; 115; 97; 103; 101; 125; 123; 109; 101; 115; 115; 97; 103; 101; 125; 125; 125; 91], Err ValueError);
    ([123; 115; 116; 97; 114; 116; 95; 99; 111; 108; 123; 112; 97; 116; 104; 123; 114; 117; 108; 101; 95; 110; 97; 109; 101; 125], Err ValueError);
    ([123; 112; 97; 116; 104; 123; 112; 97; 116; 104; 125; 93; 123; 115; 116; 97; 114; 116; 95; 108; 105; 110; 101; 58; 125; 123; 114; 117; 108; 101; 95; 110; 97; 109; 101; 125; 123; 115; 116; 97; 114; 116; 95; 108; 105; 110; 101; 125], Err ValueError);
    ([123; 115; 116; 97; 114; 116; 95; 99; 111; 108; 125; 48; 123; 112; 97; 116; 104; 125], Ok [48; 48; 47]);
    ([58; 123; 114; 117; 108; 101; 95; 110; 97; 109; 101; 125; 123; 114; 117; 108; 101; 95; 110; 97; 109; 101; 125; 97], Ok [58; 97]);
    ([123; 109; 101; 115; 115; 97; 103; 101; 125; 123; 55; 97; 125; 123; 114; 117; 108; 101; 95; 110; 97; 109; 101; 125; 123; 115; 116; 97; 114; 116; 95; 108; 105; 110; 101], Err KeyError);
    ([123; 109; 101; 115; 115; 97; 103; 101; 125; 123; 125; 125; 123; 115; 116; 97; 114; 116; 95; 99; 111; 108; 33; 122; 125; 123; 115; 116; 97; 114; 116; 95; 108; 105; 110; 101; 125], Err IndexError);
    ([123; 123; 123; 123; 112; 97; 116; 104; 125], Err ValueError);
    ([123; 115; 116; 97; 114; 116; 95; 108; 105; 110; 101; 125; 33; 115; 123; 115; 116; 97; 114; 116; 95; 99; 111; 108; 125; 123; 115; 116; 97; 114; 116; 95; 99; 111; 108; 125; 125; 125; 33; 115], Ok [45; 51; 33; 115; 48; 48; 125; 33; 115]);
    ([115; 123; 115; 116; 97; 114; 116; 95; 108; 105; 110; 101; 125; 58], Ok [115; 45; 51; 58]);
    ([32; 125; 125; 123; 123; 114; 117; 108; 101; 95; 110; 97; 109; 101; 125], Err ValueError);
    ([115; 123; 115; 116; 97; 114; 116; 95; 99; 111; 108; 125; 125; 33; 123; 115; 116; 97; 114; 116; 95; 99; 111; 108; 125], Err ValueError);
    ([32; 123; 115; 116; 97; 114; 116; 95; 108; 105; 110; 101; 58; 125], Ok [32; 45; 51]);
    ([33; 123; 115; 116; 97; 114; 116; 95; 99; 111; 108; 125; 123; 109; 101; 115; 115; 97; 103; 101; 91; 123; 115; 116; 97; 114; 116; 95; 108; 105; 110; 101; 125], Err ValueError);
    ([123; 115; 116; 97; 114; 116; 95; 99; 111; 108; 123; 125; 123; 109; 101; 115; 115; 97; 103; 101; 125; 123], Err ValueError);
    ([123; 109; 101; 115; 115; 97; 103; 101; 33; 115; 58; 125; 58], Ok [58]);
    ([123; 115; 116; 97; 114; 116; 95; 108; 105; 110; 101; 125; 33], Ok [45; 51; 33]);
    ([123; 115; 116; 97; 114; 116; 95; 99; 111; 108; 125; 91; 33; 115; 123; 109; 101; 115; 115; 97; 103; 101; 33; 123; 114; 117; 108; 101; 95; 110; 97; 109; 101; 125], Err ValueError);
    ([123; 123; 123; 125; 123; 115; 116; 97; 114; 116; 95; 108; 105; 110; 101; 125; 125; 125; 123; 115; 116; 97; 114; 116; 95; 108; 105; 110; 101], Err IndexError);
    ([123; 115; 116; 97; 114; 116; 95; 108; 105; 110; 101; 33; 122; 125; 123; 115; 116; 97; 114; 116; 95; 99; 111; 108; 58; 33; 122; 123; 109; 101; 115; 115; 97; 103; 101; 123; 109; 101; 115; 115; 97; 103; 101; 125], Err ValueError);
    ([123; 115; 116; 97; 114; 116; 95; 99; 111; 108; 123; 115; 116; 97; 114; 116; 95; 99; 111; 108; 125], Err ValueError);
    ([123; 114; 117; 108; 101; 95; 110; 97; 109; 101; 125; 123; 125; 123; 115; 116; 97; 114; 116; 95; 108; 105; 110; 101; 125], Err IndexError);
    ([123; 115; 116; 97; 114; 116; 95; 108; 105; 110; 101; 125; 91; 48; 123; 115; 116; 97; 114; 116; 95; 99; 111; 108; 58; 125; 123; 115; 116; 97; 114; 116; 95; 99; 111; 108; 125], Ok [45; 51; 91; 48; 48; 48]);
    ([33; 123; 109; 101; 115; 115; 97; 103; 101; 33; 115; 32; 125; 123; 115; 116; 97; 114; 116; 95; 108; 105; 110; 101; 33; 115; 58; 125], Err ValueError);
    ([93; 123; 114; 117; 108; 101; 95; 110; 97; 109; 101; 123; 109; 101; 115; 115; 97; 103; 101; 125], Err ValueError);
    ([123; 77; 101; 115; 115; 97; 103; 101; 125; 123; 109; 101; 115; 115; 97; 103; 101; 125; 123; 123], Err KeyError);
    ([123; 114; 117; 108; 101; 95; 110; 97; 109; 101; 125; 123; 109; 101; 115; 115; 97; 103; 101; 123; 115; 116; 97; 114; 116; 95; 108; 105; 110; 101; 125; 123; 112; 97; 116; 104; 125; 33; 123; 109; 101; 115; 115; 97; 103; 101], Err ValueError);
    ([123; 109; 101; 115; 115; 97; 103; 101; 125; 123; 77; 101; 115; 115; 97; 103; 101; 125; 123; 115; 116; 97; 114; 116; 95; 99; 111; 108; 33; 115; 32; 125; 91; 91], Err KeyError);
    ([123; 109; 101; 115; 115; 97; 103; 101; 33; 115; 58; 125; 123; 109; 101; 115; 115; 97; 103; 101; 125; 123; 123; 46; 48], Ok [123; 46; 48]);
    ([123; 114; 117; 108; 101; 95; 110; 97; 109; 101; 125; 123; 109; 101; 115; 115; 97; 103; 101; 125; 123; 112; 97; 116; 104; 33; 125; 123; 115; 116; 97; 114; 116; 95; 99; 111; 108; 125; 123; 115; 116; 97; 114; 116; 95; 108; 105; 110; 101; 125; 123; 114; 117; 108; 101; 95; 110; 97; 109; 101; 125], Err ValueError);
    ([123; 55; 97; 125; 46; 32; 123; 109; 101; 115; 115; 97; 103; 101; 125; 123; 115; 116; 97; 114; 116; 95; 108; 105; 110; 101; 125], Err KeyError);
    ([123; 109; 101; 115; 115; 97; 103; 101; 125; 33; 122; 46], Ok [33; 122; 46]);
    ([97; 123; 115; 116; 97; 114; 116; 95; 99; 111; 108; 125], Ok [97; 48]);
    ([123; 112; 97; 116; 104; 33; 125; 58; 123; 112; 97; 116; 104], Err ValueError);
    ([123; 115; 116; 97; 114; 116; 95; 99; 111; 108; 125; 123; 115; 116; 97; 114; 116; 95; 108; 105; 110; 101; 125; 123; 115; 116; 97; 114; 116; 95; 108; 105; 110; 101; 125], Ok [48; 45; 51; 45; 51]);
    ([123; 115; 116; 97; 114; 116; 95; 108; 105; 110; 101; 123; 112; 97; 116; 104; 125; 93], Err ValueError);
    ([123; 112; 97; 116; 104; 125; 123; 55; 97; 125], Err KeyError);
    ([123; 112; 97; 116; 104; 125; 123; 115; 116; 97; 114; 116; 95; 108; 105; 110; 101; 125; 123; 115; 116; 97; 114; 116; 95; 108; 105; 110; 101; 33; 115; 32; 125; 33; 122], Err ValueError);
    ([48; 115; 97; 123; 115; 116; 97; 114; 116; 95; 99; 111; 108; 125; 123; 109; 101; 115; 115; 97; 103; 101; 125], Ok [48; 115; 97; 48]);
    ([123; 109; 101; 115; 115; 97; 103; 101; 125; 115; 123; 109; 101; 115; 115; 97; 103; 101; 125; 33; 115; 123; 109; 101; 115; 115; 97; 103; 101; 125], Ok [115; 33; 115]);
    ([123; 112; 97; 116; 104; 125; 58; 93], Ok [47; 58; 93]);
    ([33; 122; 125], Err ValueError);
    ([123; 55; 97; 125; 123; 115; 116; 97; 114; 116; 95; 108; 105; 110; 101; 125; 115], Err KeyError);
    ([33; 123; 114; 117; 108; 101; 95; 110; 97; 109; 101; 125; 33; 115; 123; 115; 116; 97; 114; 116; 95; 108; 105; 110; 101; 125; 123; 115; 116; 97; 114; 116; 95; 99; 111; 108; 93], Err ValueError);
    ([123; 115; 116; 97; 114; 116; 95; 99; 111; 108; 125; 123; 115; 116; 97; 114; 116; 95; 108; 105; 110; 101; 125; 46; 123; 115; 116; 97; 114; 116; 95; 99; 111; 108; 125], Ok [48; 45; 51; 46; 48]);
    ([48; 97; 123; 115; 116; 97; 114; 116; 95; 108; 105; 110; 101; 33; 115; 32; 125; 123; 109; 101; 115; 115; 97; 103; 101; 125; 33; 115; 123; 109; 101; 115; 115; 97; 103; 101; 125], Err ValueError);
    ([123; 115; 116; 97; 114; 116; 95; 108; 105; 110; 101; 33; 115; 125; 125; 123; 123; 115; 116; 97; 114; 116; 95; 108; 105; 110; 101; 125; 123; 114; 117; 108; 101; 95; 110; 97; 109; 101; 33; 125], Err ValueError);
    ([123; 114; 117; 108; 101; 95; 110; 97; 109; 101; 32; 123; 109; 101; 115; 115; 97; 103; 101; 33; 115; 32; 125; 125; 32; 123; 112; 97; 116; 104; 33; 115; 125], Err ValueError);
    ([123; 32], Err ValueError);
    ([93; 125; 125; 123; 109; 101; 115; 115; 97; 103; 101; 123; 77; 101; 115; 115; 97; 103; 101; 125], Err ValueError);
    ([123; 77; 101; 115; 115; 97; 103; 101; 125; 123; 109; 101; 115; 115; 97; 103; 101; 125; 123; 114; 117; 108; 101; 95; 110; 97; 109; 101; 33; 122; 125; 123; 112; 97; 116; 104; 125; 123; 115; 116; 97; 114; 116; 95; 99; 111; 108; 33; 115; 125; 123; 114; 117; 108; 101; 95; 110; 97; 109; 101; 33; 115; 58; 125], Err KeyError);
    ([125; 115; 123; 114; 117; 108; 101; 95; 110; 97; 109; 101; 125; 48; 33; 123; 114; 117; 108; 101; 95; 110; 97; 109; 101; 125], Err ValueError);
    ([123; 55; 97; 125; 123; 114; 117; 108; 101; 95; 110; 97; 109; 101; 125], Err KeyError);
    ([123; 114; 117; 108; 101; 95; 110; 97; 109; 101; 125; 123; 123; 123; 114; 117; 108; 101; 95; 110; 97; 109; 101; 125; 46; 123; 115; 116; 97; 114; 116; 95; 108; 105; 110; 101; 125; 123; 115; 116; 97; 114; 116; 95; 108; 105; 110; 101; 125], Ok [123; 46; 45; 51; 45; 51]);
    ([123; 114; 117; 108; 101; 95; 110; 97; 109; 101; 125; 48; 123; 125; 123; 114; 117; 108; 101; 95; 110; 97; 109; 101; 33; 115; 58; 125; 123; 114; 117; 108; 101; 95; 110; 97; 109; 101; 125], Err IndexError);
    ([123; 114; 117; 108; 101; 95; 110; 97; 109; 101; 123; 115; 116; 97; 114; 116; 95; 108; 105; 110; 101; 125; 123; 55; 97; 125; 123; 115; 116; 97; 114; 116; 95; 108; 105; 110; 101; 33; 115; 58; 125; 33; 122], Err ValueError);
    ([123; 112; 97; 116; 104; 125; 125; 123; 115; 116; 97; 114; 116; 95; 99; 111; 108; 97; 97], Err ValueError);
    ([125; 123; 114; 117; 108; 101; 95; 110; 97; 109; 101; 125; 123; 115; 116; 97; 114; 116; 95; 99; 111; 108; 125; 123; 115; 116; 97; 114; 116; 95; 99; 111; 108; 125; 123; 115; 116; 97; 114; 116; 95; 108; 105; 110; 101; 125; 123; 109; 101; 115; 115; 97; 103; 101; 33; 115; 125], Err ValueError);
    ([123; 115; 116; 97; 114; 116; 95; 108; 105; 110; 101; 125; 123; 115; 116; 97; 114; 116; 95; 99; 111; 108; 33; 122; 125], Err ValueError);
    ([123; 115; 116; 97; 114; 116; 95; 99; 111; 108; 58; 125; 123; 112; 97; 116; 104; 125; 93; 123; 112; 97; 116; 104; 123; 115; 116; 97; 114; 116; 95; 108; 105; 110; 101; 123], Err ValueError);
    ([123; 123; 115; 116; 97; 114; 116; 95; 99; 111; 108; 33; 115; 125], Err ValueError);
    ([123; 112; 97; 116; 104; 125; 58; 32; 123; 112; 97; 116; 104; 125], Ok [47; 58; 32; 47]);
    ([123; 109; 101; 115; 115; 97; 103; 101; 125; 123; 123; 91], Ok [123; 91]) ].

Example format1_conforms : forallb (fun c => agrees (snd c) (format1 (fst c))) format1_cases = true.
Proof. vm_compute. reflexivity. Qed.
Example format1_compared : Nat.leb 938 (List.length (filter (fun c => compared (format1 (fst c))) format1_cases)) = true.
Proof. vm_compute. reflexivity. Qed.

