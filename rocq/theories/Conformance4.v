(** * textwrap.dedent on examples, generated by tools/dedent.py (no theorems about fixit) *)
From Coq Require Import List NArith.
From Verif Require Import Base Dedent.
Import ListNotations.
Local Open Scope N_scope.

Definition dedent_cases : list (str * str) :=
  [ ([], []);
    ([32], []);
    ([9], []);
    ([10], [10]);
    ([97], [97]);
    ([32; 32], []);
    ([32; 9], []);
    ([32; 10], [10]);
    ([32; 97], [97]);
    ([9; 32], []);
    ([9; 9], []);
    ([9; 10], [10]);
    ([9; 97], [97]);
    ([10; 32], [10]);
    ([10; 9], [10]);
    ([10; 10], [10; 10]);
    ([10; 97], [10; 97]);
    ([97; 32], [97; 32]);
    ([97; 9], [97; 9]);
    ([97; 10], [97; 10]);
    ([97; 97], [97; 97]);
    ([32; 32; 32], []);
    ([32; 32; 9], []);
    ([32; 32; 10], [10]);
    ([32; 32; 97], [97]);
    ([32; 9; 32], []);
    ([32; 9; 9], []);
    ([32; 9; 10], [10]);
    ([32; 9; 97], [97]);
    ([32; 10; 32], [10]);
    ([32; 10; 9], [10]);
    ([32; 10; 10], [10; 10]);
    ([32; 10; 97], [10; 97]);
    ([32; 97; 32], [97; 32]);
    ([32; 97; 9], [97; 9]);
    ([32; 97; 10], [97; 10]);
    ([32; 97; 97], [97; 97]);
    ([9; 32; 32], []);
    ([9; 32; 9], []);
    ([9; 32; 10], [10]);
    ([9; 32; 97], [97]);
    ([9; 9; 32], []);
    ([9; 9; 9], []);
    ([9; 9; 10], [10]);
    ([9; 9; 97], [97]);
    ([9; 10; 32], [10]);
    ([9; 10; 9], [10]);
    ([9; 10; 10], [10; 10]);
    ([9; 10; 97], [10; 97]);
    ([9; 97; 32], [97; 32]);
    ([9; 97; 9], [97; 9]);
    ([9; 97; 10], [97; 10]);
    ([9; 97; 97], [97; 97]);
    ([10; 32; 32], [10]);
    ([10; 32; 9], [10]);
    ([10; 32; 10], [10; 10]);
    ([10; 32; 97], [10; 97]);
    ([10; 9; 32], [10]);
    ([10; 9; 9], [10]);
    ([10; 9; 10], [10; 10]);
    ([10; 9; 97], [10; 97]);
    ([10; 10; 32], [10; 10]);
    ([10; 10; 9], [10; 10]);
    ([10; 10; 10], [10; 10; 10]);
    ([10; 10; 97], [10; 10; 97]);
    ([10; 97; 32], [10; 97; 32]);
    ([10; 97; 9], [10; 97; 9]);
    ([10; 97; 10], [10; 97; 10]);
    ([10; 97; 97], [10; 97; 97]);
    ([97; 32; 32], [97; 32; 32]);
    ([97; 32; 9], [97; 32; 9]);
    ([97; 32; 10], [97; 32; 10]);
    ([97; 32; 97], [97; 32; 97]);
    ([97; 9; 32], [97; 9; 32]);
    ([97; 9; 9], [97; 9; 9]);
    ([97; 9; 10], [97; 9; 10]);
    ([97; 9; 97], [97; 9; 97]);
    ([97; 10; 32], [97; 10]);
    ([97; 10; 9], [97; 10]);
    ([97; 10; 10], [97; 10; 10]);
    ([97; 10; 97], [97; 10; 97]);
    ([97; 97; 32], [97; 97; 32]);
    ([97; 97; 9], [97; 97; 9]);
    ([97; 97; 10], [97; 97; 10]);
    ([97; 97; 97], [97; 97; 97]);
    ([9; 98; 32; 32; 12; 32; 97; 32; 12; 10; 32; 32; 98; 98], [9; 98; 32; 32; 12; 32; 97; 32; 12; 10; 32; 32; 98; 98]);
    ([10; 32; 12; 98; 32; 32], [10; 12; 98; 32; 32]);
    ([32; 98; 32; 10; 32; 12; 9; 10; 98; 9; 12], [32; 98; 32; 10; 32; 12; 9; 10; 98; 9; 12]);
    ([10; 12; 9; 32; 10; 97; 32], [10; 12; 9; 32; 10; 97; 32]);
    ([32; 32; 10; 13; 12; 98; 97; 13; 13; 97; 10; 10; 9; 10; 32; 10; 12; 13; 97; 13; 10], [10; 13; 12; 98; 97; 13; 13; 97; 10; 10; 10; 10; 12; 13; 97; 13; 10]);
    ([32; 32; 12; 98; 9; 97; 9; 13; 98; 32; 32; 12; 97; 97; 97; 13; 13; 32; 32; 10; 13; 32; 32], [32; 32; 12; 98; 9; 97; 9; 13; 98; 32; 32; 12; 97; 97; 97; 13; 13; 32; 32; 10; 13; 32; 32]);
    ([13; 10; 98; 97; 32; 13; 97; 9; 32; 13; 32; 10; 10], [13; 10; 98; 97; 32; 13; 97; 9; 32; 13; 32; 10; 10]);
    ([10; 98; 98; 13; 32; 9; 13; 98], [10; 98; 98; 13; 32; 9; 13; 98]);
    ([10; 9; 98; 12; 10; 98; 97; 98; 10; 9; 32; 9; 9; 10; 10; 32; 13; 9; 10; 10; 32], [10; 9; 98; 12; 10; 98; 97; 98; 10; 10; 10; 32; 13; 9; 10; 10]);
    ([98; 12; 97; 97; 9; 12; 32; 13], [98; 12; 97; 97; 9; 12; 32; 13]);
    ([98; 98; 98; 98; 32; 13; 98; 32; 10; 32; 10; 13; 9; 32; 97; 32; 32; 32; 9; 12; 32], [98; 98; 98; 98; 32; 13; 98; 32; 10; 10; 13; 9; 32; 97; 32; 32; 32; 9; 12; 32]);
    ([32; 32; 10; 98; 9; 10; 97; 97; 13; 32; 32; 13; 13; 13; 13], [10; 98; 9; 10; 97; 97; 13; 32; 32; 13; 13; 13; 13]);
    ([32; 9; 32; 97; 10; 13; 9; 12; 32; 10; 12; 97; 9], [32; 9; 32; 97; 10; 13; 9; 12; 32; 10; 12; 97; 9]);
    ([32; 12; 10; 32; 10; 12; 97; 9; 97; 10; 12; 12; 12; 97; 10; 10; 10; 98; 10; 10; 12], [32; 12; 10; 10; 12; 97; 9; 97; 10; 12; 12; 12; 97; 10; 10; 10; 98; 10; 10; 12]);
    ([97; 32; 32; 10; 13; 10; 10; 97; 13; 97; 97; 32; 10; 32; 10; 13; 10; 97; 10], [97; 32; 32; 10; 13; 10; 10; 97; 13; 97; 97; 32; 10; 10; 13; 10; 97; 10]);
    ([32; 13; 97; 32; 32; 98; 10; 13; 9; 98; 97; 32; 98; 13; 98; 32; 9; 9; 9], [32; 13; 97; 32; 32; 98; 10; 13; 9; 98; 97; 32; 98; 13; 98; 32; 9; 9; 9]);
    ([9; 13; 9; 13], [13; 9; 13]);
    ([9; 12; 12; 9; 32; 32; 32; 12; 9; 98; 10; 10; 32; 10; 10], [12; 12; 9; 32; 32; 32; 12; 9; 98; 10; 10; 10; 10]);
    ([12; 10; 97; 10; 12; 98; 9; 32; 97; 13; 12; 98; 12], [12; 10; 97; 10; 12; 98; 9; 32; 97; 13; 12; 98; 12]);
    ([12; 9; 12; 12; 32; 13; 9; 32], [12; 9; 12; 12; 32; 13; 9; 32]);
    ([9; 9; 13; 32; 12; 32; 97; 12], [13; 32; 12; 32; 97; 12]);
    ([12; 13; 32; 12; 32; 10; 10; 10; 32; 32; 12; 13; 12; 32; 32; 13; 97; 12; 12; 10], [12; 13; 32; 12; 32; 10; 10; 10; 32; 32; 12; 13; 12; 32; 32; 13; 97; 12; 12; 10]);
    ([13; 12; 12; 13; 12; 10; 12; 10; 12; 10; 13; 9], [13; 12; 12; 13; 12; 10; 12; 10; 12; 10; 13; 9]);
    ([32; 98; 13; 97; 32; 10; 98; 32; 10; 10; 32; 9; 97; 9; 10; 9; 13], [32; 98; 13; 97; 32; 10; 98; 32; 10; 10; 32; 9; 97; 9; 10; 9; 13]);
    ([32; 98; 13; 9; 10; 9; 98; 12; 98; 97; 98], [32; 98; 13; 9; 10; 9; 98; 12; 98; 97; 98]);
    ([97; 97; 32; 97; 32; 97; 12; 13; 13; 32], [97; 97; 32; 97; 32; 97; 12; 13; 13; 32]);
    ([97; 12; 10; 12; 32; 32; 10; 32; 32; 10; 10; 32; 9; 10; 9; 98], [97; 12; 10; 12; 32; 32; 10; 10; 10; 10; 9; 98]);
    ([98; 9; 12; 12; 13; 97; 32; 10; 32; 9; 98; 32], [98; 9; 12; 12; 13; 97; 32; 10; 32; 9; 98; 32]);
    ([32; 32; 10; 32; 10; 32; 10; 32; 13; 32; 97; 12], [10; 10; 10; 13; 32; 97; 12]);
    ([10; 9; 32; 12; 10; 32; 9; 10; 32; 9; 10; 10; 10; 12; 10; 10; 13], [10; 9; 32; 12; 10; 10; 10; 10; 10; 12; 10; 10; 13]);
    ([9; 10; 97; 32; 10; 32; 32; 32; 12; 12; 10; 12; 13; 10; 13; 32; 98; 13; 12; 98], [10; 97; 32; 10; 32; 32; 32; 12; 12; 10; 12; 13; 10; 13; 32; 98; 13; 12; 98]);
    ([10; 10; 10; 97; 10; 9; 98; 97; 32; 9; 32; 32; 10; 98; 9; 32; 32; 98; 12; 10], [10; 10; 10; 97; 10; 9; 98; 97; 32; 9; 32; 32; 10; 98; 9; 32; 32; 98; 12; 10]);
    ([10; 10; 32; 13; 9; 9; 10; 13; 32; 10; 97; 97; 12; 97; 10; 32; 10; 10; 97; 9; 32; 97; 98], [10; 10; 32; 13; 9; 9; 10; 13; 32; 10; 97; 97; 12; 97; 10; 10; 10; 97; 9; 32; 97; 98]);
    ([13; 10; 12; 10; 10; 12], [13; 10; 12; 10; 10; 12]);
    ([32; 10; 32; 9], [10]);
    ([32; 98; 32; 10; 10; 10; 32; 12; 9; 98; 97; 13; 9; 10; 9; 32], [98; 32; 10; 10; 10; 12; 9; 98; 97; 13; 9; 10]);
    ([98; 12; 9; 12; 12; 32; 10; 32; 32; 32; 9; 97; 32; 98; 13; 12; 32; 32; 12; 10], [98; 12; 9; 12; 12; 32; 10; 32; 32; 32; 9; 97; 32; 98; 13; 12; 32; 32; 12; 10]);
    ([10; 32; 13; 32; 12; 12; 32; 12; 32; 13; 10; 32; 10; 10; 10; 10; 13; 13; 98], [10; 32; 13; 32; 12; 12; 32; 12; 32; 13; 10; 10; 10; 10; 10; 13; 13; 98]);
    ([13; 10; 32; 10; 32; 9], [13; 10; 10]);
    ([10; 10; 9; 32; 13; 32; 13; 10; 32; 10; 13; 10; 12; 10], [10; 10; 9; 32; 13; 32; 13; 10; 10; 13; 10; 12; 10]);
    ([13; 13; 32; 12; 10; 10; 32; 13; 32; 10; 13; 32; 12; 13; 10; 98; 10; 10], [13; 13; 32; 12; 10; 10; 32; 13; 32; 10; 13; 32; 12; 13; 10; 98; 10; 10]);
    ([32; 9; 12; 10; 97; 9], [32; 9; 12; 10; 97; 9]);
    ([12; 10; 32; 97; 10; 13; 13; 98; 32; 9; 32; 13; 13; 98; 10; 9; 98; 97; 98; 97; 32; 97; 32], [12; 10; 32; 97; 10; 13; 13; 98; 32; 9; 32; 13; 13; 98; 10; 9; 98; 97; 98; 97; 32; 97; 32]);
    ([97; 98; 32; 10; 32; 10; 10; 97; 32; 98; 98; 32; 97; 98], [97; 98; 32; 10; 10; 10; 97; 32; 98; 98; 32; 97; 98]);
    ([32; 10; 32; 32; 10; 9; 10; 10; 98; 12; 97; 10], [10; 10; 10; 10; 98; 12; 97; 10]);
    ([98; 32; 98; 12; 12; 10; 32; 32; 98; 13; 9; 10; 13; 32; 12], [98; 32; 98; 12; 12; 10; 32; 32; 98; 13; 9; 10; 13; 32; 12]);
    ([9; 13; 98; 97; 10; 10; 10; 10], [13; 98; 97; 10; 10; 10; 10]);
    ([10; 10; 13; 12; 98; 32; 9; 9; 32; 10; 12; 13; 12; 10; 13; 97], [10; 10; 13; 12; 98; 32; 9; 9; 32; 10; 12; 13; 12; 10; 13; 97]);
    ([98; 9; 12; 10; 10; 32; 9; 97; 12; 32; 97; 10; 97; 10; 10; 32; 98; 98], [98; 9; 12; 10; 10; 32; 9; 97; 12; 32; 97; 10; 97; 10; 10; 32; 98; 98]);
    ([12; 10; 98; 10; 97; 32; 13; 10; 97; 9; 12; 12; 10; 32; 10; 10; 98], [12; 10; 98; 10; 97; 32; 13; 10; 97; 9; 12; 12; 10; 10; 10; 98]);
    ([13; 98; 10; 32; 9; 32; 98; 13; 13; 32; 32; 98; 12; 13; 13; 10], [13; 98; 10; 32; 9; 32; 98; 13; 13; 32; 32; 98; 12; 13; 13; 10]);
    ([10; 9; 9; 12; 32; 13; 32], [10; 12; 32; 13; 32]);
    ([32; 32; 9; 10; 32; 10; 9; 10; 12; 98; 32; 32; 32; 10; 12; 10; 98; 10; 10; 32; 32], [10; 10; 10; 12; 98; 32; 32; 32; 10; 12; 10; 98; 10; 10]);
    ([10; 13; 10; 97; 10; 13; 12; 10; 12; 10; 32; 98; 10; 32; 32; 10; 13; 98; 32; 10; 10], [10; 13; 10; 97; 10; 13; 12; 10; 12; 10; 32; 98; 10; 10; 13; 98; 32; 10; 10]);
    ([97; 10; 13; 32; 97; 98; 97; 98; 10; 32; 10; 12; 32; 10; 13; 10; 10], [97; 10; 13; 32; 97; 98; 97; 98; 10; 10; 12; 32; 10; 13; 10; 10]);
    ([10; 13; 10; 10; 10; 32; 13; 9; 10; 13], [10; 13; 10; 10; 10; 32; 13; 9; 10; 13]);
    ([32; 9; 98; 32; 10; 32; 9; 98; 32; 32; 9; 98; 13; 97; 32; 32; 9], [98; 32; 10; 98; 32; 32; 9; 98; 13; 97; 32; 32; 9]);
    ([10; 9; 12; 13; 32; 10; 98; 97; 97; 13; 9; 32; 32; 32], [10; 9; 12; 13; 32; 10; 98; 97; 97; 13; 9; 32; 32; 32]);
    ([32; 97; 98; 32; 12; 10; 98; 97; 10; 98; 32; 32], [32; 97; 98; 32; 12; 10; 98; 97; 10; 98; 32; 32]);
    ([10; 97; 12; 13; 10; 97; 97; 13; 32; 98; 10; 98; 32; 98; 32; 13; 32; 32; 10], [10; 97; 12; 13; 10; 97; 97; 13; 32; 98; 10; 98; 32; 98; 32; 13; 32; 32; 10]);
    ([32; 97; 97; 10; 97; 32; 10; 97; 10; 10], [32; 97; 97; 10; 97; 32; 10; 97; 10; 10]);
    ([32; 32; 10; 32], [10]);
    ([13; 98; 10; 98; 13; 9; 13; 9; 32; 10; 9; 10; 97; 97; 13; 97; 32; 12; 10], [13; 98; 10; 98; 13; 9; 13; 9; 32; 10; 10; 97; 97; 13; 97; 32; 12; 10]);
    ([9; 10; 98; 32; 32; 13; 12; 12; 97; 9; 98; 32; 32; 10; 32; 10], [10; 98; 32; 32; 13; 12; 12; 97; 9; 98; 32; 32; 10; 10]);
    ([98; 13; 13; 9; 10; 9; 98], [98; 13; 13; 9; 10; 9; 98]);
    ([10; 12; 32; 10; 10; 10; 10; 97; 10; 10; 10; 13; 10; 9; 10; 10; 9; 10], [10; 12; 32; 10; 10; 10; 10; 97; 10; 10; 10; 13; 10; 10; 10; 10]);
    ([10; 97; 32; 98; 10; 10; 12; 12; 10; 32; 13; 32; 32; 32; 13; 10; 13; 97; 32; 10; 10; 32], [10; 97; 32; 98; 10; 10; 12; 12; 10; 32; 13; 32; 32; 32; 13; 10; 13; 97; 32; 10; 10]);
    ([10; 10; 32; 97; 12], [10; 10; 97; 12]);
    ([13; 10; 32; 32; 97; 10; 32; 97; 97], [13; 10; 32; 32; 97; 10; 32; 97; 97]);
    ([32; 10; 10; 32; 10; 32; 97; 98], [10; 10; 10; 97; 98]);
    ([9; 10; 32; 10; 32; 13; 12; 13; 32; 98; 32; 98; 12; 9; 12], [10; 10; 13; 12; 13; 32; 98; 32; 98; 12; 9; 12]);
    ([9; 98; 10; 98; 10; 10], [9; 98; 10; 98; 10; 10]);
    ([32; 10; 97; 98; 98; 32; 97; 10; 98; 98; 10; 32; 98; 9; 98; 32; 32], [10; 97; 98; 98; 32; 97; 10; 98; 98; 10; 32; 98; 9; 98; 32; 32]);
    ([97; 13; 9; 9; 32; 32; 12; 9; 98; 32; 97; 12; 9; 9; 97; 10], [97; 13; 9; 9; 32; 32; 12; 9; 98; 32; 97; 12; 9; 9; 97; 10]);
    ([12; 9; 32; 32; 98; 13; 10; 10; 9], [12; 9; 32; 32; 98; 13; 10; 10]);
    ([13; 97; 32; 98; 32], [13; 97; 32; 98; 32]);
    ([9; 10; 98; 10; 13; 9; 10; 32; 98; 12; 9; 98; 97; 32; 9; 10; 10; 32; 12; 32; 97; 32; 98], [10; 98; 10; 13; 9; 10; 32; 98; 12; 9; 98; 97; 32; 9; 10; 10; 32; 12; 32; 97; 32; 98]);
    ([13; 12; 10; 98; 10; 10; 98; 98; 97; 13; 12; 13; 9; 32; 32; 13; 13; 10; 13; 13; 9; 13; 98], [13; 12; 10; 98; 10; 10; 98; 98; 97; 13; 12; 13; 9; 32; 32; 13; 13; 10; 13; 13; 9; 13; 98]);
    ([32; 9; 97; 98; 97; 32; 13], [97; 98; 97; 32; 13]);
    ([12; 32; 32; 9; 32; 97; 12; 32; 32; 12; 98; 9; 32; 32; 32; 10; 9; 13; 10; 9], [12; 32; 32; 9; 32; 97; 12; 32; 32; 12; 98; 9; 32; 32; 32; 10; 9; 13; 10]);
    ([32; 97; 10; 9; 97; 10; 13; 9; 10; 12; 13], [32; 97; 10; 9; 97; 10; 13; 9; 10; 12; 13]);
    ([10; 12; 10; 97; 97; 32; 10; 9; 98; 9], [10; 12; 10; 97; 97; 32; 10; 9; 98; 9]);
    ([97; 98; 9; 10; 32; 12; 32; 97; 13; 12; 12; 32], [97; 98; 9; 10; 32; 12; 32; 97; 13; 12; 12; 32]);
    ([12; 98; 97; 10; 98; 97; 9; 97; 97; 32; 13; 10], [12; 98; 97; 10; 98; 97; 9; 97; 97; 32; 13; 10]);
    ([32; 10; 12; 10; 10; 97; 32; 32; 10], [10; 12; 10; 10; 97; 32; 32; 10]);
    ([10; 98; 98; 12; 97; 32; 9; 13], [10; 98; 98; 12; 97; 32; 9; 13]);
    ([32; 32; 32; 32; 97; 10; 32; 12; 97; 12; 10], [32; 32; 32; 97; 10; 12; 97; 12; 10]);
    ([10; 9; 10; 97; 13; 9; 9; 32; 10; 9; 13; 32; 32; 9; 10; 98; 10], [10; 10; 97; 13; 9; 9; 32; 10; 9; 13; 32; 32; 9; 10; 98; 10]);
    ([32; 12; 97; 13], [12; 97; 13]);
    ([12; 13; 10; 9; 32; 32; 32; 12; 32; 98; 9; 10; 9; 32; 32; 32; 12; 10; 9; 98; 10; 12; 12], [12; 13; 10; 9; 32; 32; 32; 12; 32; 98; 9; 10; 9; 32; 32; 32; 12; 10; 9; 98; 10; 12; 12]);
    ([9; 12; 10; 32; 10; 32; 13; 12; 32; 98; 98; 13; 32; 13; 9; 10; 32], [9; 12; 10; 10; 32; 13; 12; 32; 98; 98; 13; 32; 13; 9; 10]);
    ([10; 32; 32; 97; 10; 32; 10; 12; 98; 12; 10; 10], [10; 32; 32; 97; 10; 10; 12; 98; 12; 10; 10]);
    ([32; 12; 32; 9; 10; 10; 10; 9; 97; 10], [32; 12; 32; 9; 10; 10; 10; 9; 97; 10]);
    ([97; 10; 98; 12; 13; 13; 12; 32; 32; 98; 10; 10; 10; 98; 32; 9], [97; 10; 98; 12; 13; 13; 12; 32; 32; 98; 10; 10; 10; 98; 32; 9]);
    ([32; 32; 32; 32; 9; 97; 9; 32], [97; 9; 32]);
    ([32; 9; 32; 32], []);
    ([32; 97; 10; 12; 32], [32; 97; 10; 12; 32]);
    ([32; 10; 10; 10; 32; 32; 32; 32; 10; 13; 32; 9; 32; 10; 10; 97], [10; 10; 10; 10; 13; 32; 9; 32; 10; 10; 97]);
    ([98; 10; 32; 97; 10; 10; 32; 97; 97; 12; 13; 10; 32; 98], [98; 10; 32; 97; 10; 10; 32; 97; 97; 12; 13; 10; 32; 98]);
    ([98; 12; 32; 97], [98; 12; 32; 97]);
    ([32; 12; 10; 32; 10; 9; 98; 32; 12; 10; 10; 32; 32; 97; 13; 32; 13; 9; 13], [32; 12; 10; 10; 9; 98; 32; 12; 10; 10; 32; 32; 97; 13; 32; 13; 9; 13]);
    ([97; 12; 10; 9; 10; 10; 10; 13; 9; 32; 32; 13; 12; 32; 97; 97; 32; 98; 98; 32; 98; 32], [97; 12; 10; 10; 10; 10; 13; 9; 32; 32; 13; 12; 32; 97; 97; 32; 98; 98; 32; 98; 32]);
    ([10; 10; 10; 98; 12; 12; 9; 98; 10; 13; 9; 12; 32; 97; 97], [10; 10; 10; 98; 12; 12; 9; 98; 10; 13; 9; 12; 32; 97; 97]);
    ([9; 13; 12; 97; 9; 13; 13; 10; 10; 9; 97; 13; 10; 12; 10; 10; 10; 9; 9; 10], [9; 13; 12; 97; 9; 13; 13; 10; 10; 9; 97; 13; 10; 12; 10; 10; 10; 10]);
    ([12; 97; 9; 10; 97; 10; 10; 32; 9; 32; 10; 98; 9; 9], [12; 97; 9; 10; 97; 10; 10; 10; 98; 9; 9]);
    ([10; 98; 10; 10; 32; 32; 10; 10; 98; 13; 32; 32; 98], [10; 98; 10; 10; 10; 10; 98; 13; 32; 32; 98]);
    ([10; 12; 10; 13; 32; 9; 10; 98; 32; 10; 98; 98; 10; 10; 9; 32; 13], [10; 12; 10; 13; 32; 9; 10; 98; 32; 10; 98; 98; 10; 10; 9; 32; 13]);
    ([97; 10; 32; 98; 10; 98; 9; 10; 98; 13; 13; 32; 98; 12; 9; 97; 32], [97; 10; 32; 98; 10; 98; 9; 10; 98; 13; 13; 32; 98; 12; 9; 97; 32]);
    ([13; 32; 32; 10; 12; 10; 9; 10; 12; 97; 32; 13; 12; 10; 13; 12], [13; 32; 32; 10; 12; 10; 10; 12; 97; 32; 13; 12; 10; 13; 12]);
    ([97; 12; 97; 98], [97; 12; 97; 98]);
    ([10; 9; 98; 12; 32; 97; 32; 10; 10; 98; 98; 32; 32; 32; 98; 98; 97; 10], [10; 9; 98; 12; 32; 97; 32; 10; 10; 98; 98; 32; 32; 32; 98; 98; 97; 10]);
    ([10; 10; 98; 12; 10; 98; 13], [10; 10; 98; 12; 10; 98; 13]);
    ([9; 9; 32; 10; 13; 12; 10; 9; 97; 98], [10; 13; 12; 10; 9; 97; 98]);
    ([10; 12; 9; 13; 97; 10; 10; 98; 10; 98; 9; 13; 32; 10; 97; 10; 10; 97], [10; 12; 9; 13; 97; 10; 10; 98; 10; 98; 9; 13; 32; 10; 97; 10; 10; 97]);
    ([13; 98; 32; 97; 9; 10; 98; 32; 32; 97; 9; 12; 97; 32; 32; 10; 32; 10; 10], [13; 98; 32; 97; 9; 10; 98; 32; 32; 97; 9; 12; 97; 32; 32; 10; 10; 10]);
    ([32; 9; 10; 9; 13; 97; 9; 10; 98; 12; 9; 32; 12; 10; 10; 13; 10; 12; 32; 13; 32; 12; 32], [10; 9; 13; 97; 9; 10; 98; 12; 9; 32; 12; 10; 10; 13; 10; 12; 32; 13; 32; 12; 32]);
    ([98; 10; 9; 13; 13; 12; 32; 13; 13; 9; 13; 10], [98; 10; 9; 13; 13; 12; 32; 13; 13; 9; 13; 10]);
    ([9; 12; 32; 9; 97; 13; 13; 10; 13; 97; 98; 98; 32; 9; 97; 32; 32; 32; 97], [9; 12; 32; 9; 97; 13; 13; 10; 13; 97; 98; 98; 32; 9; 97; 32; 32; 32; 97]);
    ([12; 13; 13; 9; 32; 10; 98], [12; 13; 13; 9; 32; 10; 98]);
    ([97; 32; 97; 97; 13; 12; 12; 10], [97; 32; 97; 97; 13; 12; 12; 10]);
    ([98; 97; 98; 10; 12; 32; 10; 10; 97; 13; 98; 97; 12], [98; 97; 98; 10; 12; 32; 10; 10; 97; 13; 98; 97; 12]);
    ([12; 97; 10; 13; 32; 97; 10; 97; 10; 9; 32; 32], [12; 97; 10; 13; 32; 97; 10; 97; 10]);
    ([12; 98; 12; 32; 98; 10; 32; 32; 32; 10; 13; 32; 12; 12; 98; 9], [12; 98; 12; 32; 98; 10; 10; 13; 32; 12; 12; 98; 9]);
    ([32; 10; 32; 13; 9; 32; 9; 32; 98; 32; 32; 97; 9; 10; 12; 10; 10; 9; 98; 32; 97; 32; 98], [10; 32; 13; 9; 32; 9; 32; 98; 32; 32; 97; 9; 10; 12; 10; 10; 9; 98; 32; 97; 32; 98]);
    ([32; 13; 12; 32; 32; 98; 98; 13; 32; 32; 98; 9; 13; 98; 12; 32; 32; 13; 10; 9; 32; 98], [32; 13; 12; 32; 32; 98; 98; 13; 32; 32; 98; 9; 13; 98; 12; 32; 32; 13; 10; 9; 32; 98]);
    ([32; 32; 32; 10], [10]);
    ([9; 13; 32; 10; 10; 13; 9], [9; 13; 32; 10; 10; 13; 9]);
    ([97; 9; 32; 10; 12], [97; 9; 32; 10; 12]);
    ([13; 10; 32; 32; 32; 32; 32; 32; 98; 10; 10; 9; 13; 32; 97; 97; 13; 13; 9], [13; 10; 32; 32; 32; 32; 32; 32; 98; 10; 10; 9; 13; 32; 97; 97; 13; 13; 9]);
    ([32; 97; 9; 98; 13; 98; 13; 10], [97; 9; 98; 13; 98; 13; 10]);
    ([97; 10; 10; 32; 97; 32; 9; 10; 98; 10; 98; 98; 98; 10; 13; 10; 32; 97; 10; 10; 98; 9], [97; 10; 10; 32; 97; 32; 9; 10; 98; 10; 98; 98; 98; 10; 13; 10; 32; 97; 10; 10; 98; 9]);
    ([32; 10; 9; 9; 10; 12; 13; 97; 12; 32; 12; 12; 13; 98; 10; 10; 10; 32; 98; 13; 10; 10], [10; 10; 12; 13; 97; 12; 32; 12; 12; 13; 98; 10; 10; 10; 32; 98; 13; 10; 10]);
    ([32; 98; 13; 12; 32; 12; 97; 32; 10; 98; 12; 10; 12; 97; 13; 12; 10; 10; 10; 10; 32; 9], [32; 98; 13; 12; 32; 12; 97; 32; 10; 98; 12; 10; 12; 97; 13; 12; 10; 10; 10; 10]);
    ([97; 97; 98; 12; 9; 10; 32; 13; 97; 32; 97; 13; 32], [97; 97; 98; 12; 9; 10; 32; 13; 97; 32; 97; 13; 32]);
    ([97; 32; 97; 10; 12; 32; 32; 32], [97; 32; 97; 10; 12; 32; 32; 32]);
    ([13; 10; 10; 10; 98; 32; 13; 9; 10; 32], [13; 10; 10; 10; 98; 32; 13; 9; 10]);
    ([10; 9; 98; 32; 32; 32; 32; 12; 97; 13; 13; 32; 98; 32], [10; 98; 32; 32; 32; 32; 12; 97; 13; 13; 32; 98; 32]);
    ([10; 97; 10; 32; 12; 98], [10; 97; 10; 32; 12; 98]);
    ([13; 9; 97; 10; 10; 9; 32; 10; 97], [13; 9; 97; 10; 10; 10; 97]);
    ([12; 32; 32; 10; 12], [12; 32; 32; 10; 12]);
    ([32; 32; 9; 97; 32; 10; 10; 13; 32; 13; 97; 97; 10; 98; 32; 97; 13; 98; 9], [32; 32; 9; 97; 32; 10; 10; 13; 32; 13; 97; 97; 10; 98; 32; 97; 13; 98; 9]);
    ([10; 9; 32; 13; 10; 32; 9; 10; 32; 97; 9; 13; 32; 98; 32; 32; 13; 97], [10; 9; 32; 13; 10; 10; 32; 97; 9; 13; 32; 98; 32; 32; 13; 97]);
    ([10; 13; 32; 97; 9; 97; 10; 32; 9; 13; 12; 9; 13; 9], [10; 13; 32; 97; 9; 97; 10; 32; 9; 13; 12; 9; 13; 9]);
    ([98; 98; 10; 9; 32; 10; 10; 97; 9; 10; 13; 32], [98; 98; 10; 10; 10; 97; 9; 10; 13; 32]);
    ([13; 13; 32; 9; 12; 32; 10; 12; 13; 10; 32; 10; 10; 97], [13; 13; 32; 9; 12; 32; 10; 12; 13; 10; 10; 10; 97]);
    ([10; 10; 10; 32; 98; 10; 98; 9; 32; 10; 9; 32; 13; 12; 97; 12; 9], [10; 10; 10; 32; 98; 10; 98; 9; 32; 10; 9; 32; 13; 12; 97; 12; 9]);
    ([32; 12; 10; 9; 97; 98; 32; 98; 10; 10; 9; 9; 9; 12; 10; 9; 10; 32], [32; 12; 10; 9; 97; 98; 32; 98; 10; 10; 9; 9; 9; 12; 10; 10]);
    ([13; 10; 9; 10; 9; 10], [13; 10; 10; 10]);
    ([10; 10; 32; 32; 12; 98; 32; 12; 97; 97; 10; 13; 32; 32; 98; 13; 9; 10; 10; 9; 97; 32], [10; 10; 32; 32; 12; 98; 32; 12; 97; 97; 10; 13; 32; 32; 98; 13; 9; 10; 10; 9; 97; 32]);
    ([97; 32; 97; 12; 13; 12; 32; 32; 97], [97; 32; 97; 12; 13; 12; 32; 32; 97]);
    ([97; 98; 32; 10; 32; 13; 13; 12; 32; 12; 12], [97; 98; 32; 10; 32; 13; 13; 12; 32; 12; 12]);
    ([32; 10; 32; 10; 9; 9; 32; 10], [10; 10; 10]);
    ([12; 32; 32; 32; 10; 10; 32; 13; 12; 10; 13; 32], [12; 32; 32; 32; 10; 10; 32; 13; 12; 10; 13; 32]);
    ([32; 9; 32; 10; 32; 13; 13; 12; 10; 32; 32; 32; 98; 9; 12], [10; 13; 13; 12; 10; 32; 32; 98; 9; 12]);
    ([10; 10; 9; 13; 98; 9; 32; 98; 98; 12; 32; 98; 32; 97; 97; 98; 10; 97; 98; 97; 98; 12], [10; 10; 9; 13; 98; 9; 32; 98; 98; 12; 32; 98; 32; 97; 97; 98; 10; 97; 98; 97; 98; 12]);
    ([97; 12; 9; 97; 10], [97; 12; 9; 97; 10]);
    ([32; 97; 32; 12; 9; 32; 97; 98; 10; 12; 32; 10; 9; 98; 98; 13; 32], [32; 97; 32; 12; 9; 32; 97; 98; 10; 12; 32; 10; 9; 98; 98; 13; 32]);
    ([32; 10; 10; 12; 32], [10; 10; 12; 32]);
    ([32; 10; 32; 12; 32; 98; 10; 32; 10; 32; 10; 97; 9; 32; 32; 12; 10; 32; 13; 12; 9; 13; 32], [10; 32; 12; 32; 98; 10; 10; 10; 97; 9; 32; 32; 12; 10; 32; 13; 12; 9; 13; 32]);
    ([9; 10; 98; 10; 10; 10; 32; 12; 10; 13; 10; 98; 10; 12; 97; 13; 12; 10; 13; 13], [10; 98; 10; 10; 10; 32; 12; 10; 13; 10; 98; 10; 12; 97; 13; 12; 10; 13; 13]);
    ([32; 10; 97; 10; 10; 12; 12; 98; 98; 32; 97; 9; 10], [10; 97; 10; 10; 12; 12; 98; 98; 32; 97; 9; 10]);
    ([12; 97; 13; 10; 10; 10; 10; 32; 32; 9; 12; 32; 97; 13], [12; 97; 13; 10; 10; 10; 10; 32; 32; 9; 12; 32; 97; 13]);
    ([12; 98; 13; 97; 32], [12; 98; 13; 97; 32]);
    ([10; 9; 98; 97; 97; 9; 10; 10; 12; 32; 13; 10; 9; 98; 32; 32; 98; 12; 32; 13], [10; 9; 98; 97; 97; 9; 10; 10; 12; 32; 13; 10; 9; 98; 32; 32; 98; 12; 32; 13]);
    ([9; 98; 10; 32; 98; 13; 13; 10; 97; 10; 97; 98; 12; 12; 98; 97], [9; 98; 10; 32; 98; 13; 13; 10; 97; 10; 97; 98; 12; 12; 98; 97]);
    ([13; 98; 13; 10], [13; 98; 13; 10]);
    ([12; 10; 9; 98; 98; 10; 32; 97; 97], [12; 10; 9; 98; 98; 10; 32; 97; 97]);
    ([10; 97; 10; 98; 32; 32; 32; 10; 13; 10; 12; 10; 12; 98; 12; 12; 98; 98; 13; 97; 32; 97; 13], [10; 97; 10; 98; 32; 32; 32; 10; 13; 10; 12; 10; 12; 98; 12; 12; 98; 98; 13; 97; 32; 97; 13]);
    ([32; 12; 10; 32], [12; 10]);
    ([97; 12; 98; 12; 9; 10; 98; 13; 98; 13; 97; 12; 32; 9; 97; 97; 97], [97; 12; 98; 12; 9; 10; 98; 13; 98; 13; 97; 12; 32; 9; 97; 97; 97]);
    ([10; 12; 9; 32; 10; 97], [10; 12; 9; 32; 10; 97]);
    ([98; 9; 12; 10; 12; 10; 12; 10; 98; 9; 32; 32; 97; 32; 98; 32; 32; 10; 12; 32], [98; 9; 12; 10; 12; 10; 12; 10; 98; 9; 32; 32; 97; 32; 98; 32; 32; 10; 12; 32]);
    ([98; 32; 32; 32; 10; 9; 13; 12; 10; 12; 12; 9; 10], [98; 32; 32; 32; 10; 9; 13; 12; 10; 12; 12; 9; 10]);
    ([32; 9; 9; 12; 12; 32; 32; 32; 32; 9; 12; 13; 13; 98; 32; 32; 97], [12; 12; 32; 32; 32; 32; 9; 12; 13; 13; 98; 32; 32; 97]);
    ([10; 97; 10; 9; 32; 10; 32; 32], [10; 97; 10; 10]);
    ([10; 13; 98; 32; 32; 10; 98; 32; 13; 32; 10; 10; 10; 32; 9], [10; 13; 98; 32; 32; 10; 98; 32; 13; 32; 10; 10; 10]);
    ([9; 97; 32; 13; 10; 98; 10; 13; 32; 10; 98; 10; 98; 10; 98; 13; 32; 10; 32; 9; 9; 97], [9; 97; 32; 13; 10; 98; 10; 13; 32; 10; 98; 10; 98; 10; 98; 13; 32; 10; 32; 9; 9; 97]);
    ([9; 32; 10; 98; 12; 97; 32; 97; 12; 98; 97; 98; 32; 32; 98; 97], [10; 98; 12; 97; 32; 97; 12; 98; 97; 98; 32; 32; 98; 97]);
    ([10; 98; 10; 13; 10; 97; 10; 98; 32; 10; 32; 97; 9; 10; 9; 32; 10; 10; 12; 9; 12], [10; 98; 10; 13; 10; 97; 10; 98; 32; 10; 32; 97; 9; 10; 10; 10; 12; 9; 12]);
    ([13; 10; 9; 97; 97; 10; 98; 98; 10; 10; 13; 12; 10; 10; 13; 9; 10; 13], [13; 10; 9; 97; 97; 10; 98; 98; 10; 10; 13; 12; 10; 10; 13; 9; 10; 13]);
    ([97; 12; 10; 98; 12; 10; 9; 32; 12; 32; 12; 10; 98; 32; 9; 10; 32; 98; 32; 9; 10; 97], [97; 12; 10; 98; 12; 10; 9; 32; 12; 32; 12; 10; 98; 32; 9; 10; 32; 98; 32; 9; 10; 97]);
    ([32; 32; 12; 97; 12; 10; 10; 32; 10; 32], [12; 97; 12; 10; 10; 10]);
    ([10; 9; 98; 10; 97; 98; 13; 9; 10; 9; 32], [10; 9; 98; 10; 97; 98; 13; 9; 10]);
    ([97; 98; 32; 13; 10; 98; 97; 32; 9; 10; 32; 10; 10; 32; 98], [97; 98; 32; 13; 10; 98; 97; 32; 9; 10; 10; 10; 32; 98]);
    ([9; 98; 10; 10; 9], [98; 10; 10]);
    ([32; 12; 10; 9; 10; 13; 12; 10; 98; 97; 32; 32; 10; 32; 32; 10], [32; 12; 10; 10; 13; 12; 10; 98; 97; 32; 32; 10; 10]);
    ([32; 97; 10; 97; 32; 98; 98], [32; 97; 10; 97; 32; 98; 98]);
    ([10; 10; 12; 32; 97; 98; 13; 97; 12; 13; 12; 32; 10; 98; 12; 9; 13; 10; 32; 12; 10; 9; 12], [10; 10; 12; 32; 97; 98; 13; 97; 12; 13; 12; 32; 10; 98; 12; 9; 13; 10; 32; 12; 10; 9; 12]);
    ([10; 12; 10; 10; 32; 9; 97; 97; 98], [10; 12; 10; 10; 32; 9; 97; 97; 98]);
    ([10; 10; 9; 9; 13; 13], [10; 10; 13; 13]);
    ([10; 32; 12; 13; 9; 97; 10; 9; 9; 10; 97], [10; 32; 12; 13; 9; 97; 10; 10; 97]);
    ([12; 98; 9; 9; 13; 98; 10], [12; 98; 9; 9; 13; 98; 10]);
    ([10; 32; 97; 13; 10; 32; 32], [10; 97; 13; 10]);
    ([10; 10; 32; 10; 13; 32; 9; 97; 13; 13; 97; 10], [10; 10; 10; 13; 32; 9; 97; 13; 13; 97; 10]);
    ([12; 32; 32; 32; 13; 13; 32; 97; 10], [12; 32; 32; 32; 13; 13; 32; 97; 10]);
    ([13; 98; 13; 10; 12; 97; 32], [13; 98; 13; 10; 12; 97; 32]);
    ([32; 10; 10; 10; 32; 9; 32; 32; 98; 9; 10; 97; 9; 12; 9], [10; 10; 10; 32; 9; 32; 32; 98; 9; 10; 97; 9; 12; 9]);
    ([10; 97; 98; 9; 97; 97; 10], [10; 97; 98; 9; 97; 97; 10]);
    ([9; 12; 97; 10; 10; 32; 32; 32; 98; 32; 10; 13; 98; 13; 9], [9; 12; 97; 10; 10; 32; 32; 32; 98; 32; 10; 13; 98; 13; 9]);
    ([32; 9; 10; 9; 9; 13; 98; 32; 32; 13; 13; 10; 10], [10; 13; 98; 32; 32; 13; 13; 10; 10]);
    ([32; 32; 12; 98; 9; 10; 32; 32; 12; 98; 97; 32; 13; 32; 9], [12; 98; 9; 10; 12; 98; 97; 32; 13; 32; 9]);
    ([98; 10; 32; 13; 97; 10; 13; 32; 12], [98; 10; 32; 13; 97; 10; 13; 32; 12]);
    ([12; 13; 98; 12; 9; 98; 32; 32; 97; 10; 98; 97; 13; 9], [12; 13; 98; 12; 9; 98; 32; 32; 97; 10; 98; 97; 13; 9]);
    ([97; 12; 32; 10; 10; 13; 32; 9; 97; 12; 98; 97; 12], [97; 12; 32; 10; 10; 13; 32; 9; 97; 12; 98; 97; 12]);
    ([13; 98; 10; 32; 10; 9; 10; 12; 32; 10; 10], [13; 98; 10; 10; 10; 12; 32; 10; 10]);
    ([10; 12; 10; 13; 10; 12; 13], [10; 12; 10; 13; 10; 12; 13]);
    ([12; 32; 12; 32; 98; 32; 13; 9; 12; 12; 12], [12; 32; 12; 32; 98; 32; 13; 9; 12; 12; 12]);
    ([12; 32; 13; 98; 12; 9; 10], [12; 32; 13; 98; 12; 9; 10]);
    ([13; 32; 9; 97; 32; 98; 10; 32; 97; 32; 32; 10; 13; 10; 32; 9; 98; 32; 10; 32; 97; 9], [13; 32; 9; 97; 32; 98; 10; 32; 97; 32; 32; 10; 13; 10; 32; 9; 98; 32; 10; 32; 97; 9]);
    ([97; 32; 10; 32; 10; 97; 12; 12; 97; 13; 32; 97; 32; 97; 12], [97; 32; 10; 10; 97; 12; 12; 97; 13; 32; 97; 32; 97; 12]);
    ([32; 32; 10; 10; 97; 10; 13; 32; 13; 32; 32; 13; 32; 32], [10; 10; 97; 10; 13; 32; 13; 32; 32; 13; 32; 32]);
    ([9; 9; 12; 10; 98; 9; 10; 12; 10; 13; 32; 32], [9; 9; 12; 10; 98; 9; 10; 12; 10; 13; 32; 32]);
    ([9; 13; 12; 13; 32; 32; 32; 9; 98; 13; 9; 13; 98; 10], [13; 12; 13; 32; 32; 32; 9; 98; 13; 9; 13; 98; 10]);
    ([12; 32; 97; 97; 12; 10; 10; 9; 32; 10; 9; 97; 13; 97; 13; 98; 97; 97; 32; 97; 13; 97; 10], [12; 32; 97; 97; 12; 10; 10; 10; 9; 97; 13; 97; 13; 98; 97; 97; 32; 97; 13; 97; 10]);
    ([10; 13; 32; 9], [10; 13; 32; 9]);
    ([10; 98; 10; 32; 12; 10; 97; 12], [10; 98; 10; 32; 12; 10; 97; 12]);
    ([9; 32; 12; 32; 10; 98; 32; 97; 10; 10; 9; 32; 10; 97; 97; 12; 10; 97; 12; 98; 97; 32], [9; 32; 12; 32; 10; 98; 32; 97; 10; 10; 10; 97; 97; 12; 10; 97; 12; 98; 97; 32]);
    ([97; 13; 12; 97; 10; 10; 97; 9; 9; 10; 32; 13; 98; 13], [97; 13; 12; 97; 10; 10; 97; 9; 9; 10; 32; 13; 98; 13]);
    ([10; 9; 32; 9; 10; 10; 10; 12; 97; 32; 10; 32; 9; 10; 97; 13], [10; 10; 10; 10; 12; 97; 32; 10; 10; 97; 13]);
    ([98; 32; 13; 97; 9; 10; 10; 12; 32; 9; 10; 10; 32; 10; 32], [98; 32; 13; 97; 9; 10; 10; 12; 32; 9; 10; 10; 10]);
    ([13; 10; 10; 12; 32; 10; 10; 32; 9; 32; 32; 32; 97; 9; 32; 10], [13; 10; 10; 12; 32; 10; 10; 32; 9; 32; 32; 32; 97; 9; 32; 10]);
    ([12; 32; 97; 32; 10; 97; 97; 32; 13; 98; 97; 9], [12; 32; 97; 32; 10; 97; 97; 32; 13; 98; 97; 9]);
    ([98; 32; 32; 97; 13], [98; 32; 32; 97; 13]);
    ([98; 10; 13; 32; 32; 97; 97; 32; 98; 97; 9; 32; 32; 9; 10; 9; 12; 32; 97; 97; 98; 97; 12], [98; 10; 13; 32; 32; 97; 97; 32; 98; 97; 9; 32; 32; 9; 10; 9; 12; 32; 97; 97; 98; 97; 12]);
    ([12; 9; 97; 10; 10; 13; 32; 10; 12; 13; 12; 10; 97; 12; 12; 10; 9; 10; 32; 12; 13; 32], [12; 9; 97; 10; 10; 13; 32; 10; 12; 13; 12; 10; 97; 12; 12; 10; 10; 32; 12; 13; 32]);
    ([9; 10; 98; 32; 32; 9; 32; 32; 12; 12; 10; 12; 9; 10; 97], [10; 98; 32; 32; 9; 32; 32; 12; 12; 10; 12; 9; 10; 97]);
    ([9; 9; 12; 32; 97; 10; 13; 13], [9; 9; 12; 32; 97; 10; 13; 13]);
    ([97; 98; 13; 10; 97; 32; 32; 32; 32; 98], [97; 98; 13; 10; 97; 32; 32; 32; 32; 98]);
    ([32; 10; 98; 98; 98; 10; 32; 10; 32; 10; 98; 10; 10; 97; 10], [10; 98; 98; 98; 10; 10; 10; 98; 10; 10; 97; 10]);
    ([98; 10; 10; 13; 10; 9; 13; 10; 9; 10; 10; 32; 97; 32], [98; 10; 10; 13; 10; 9; 13; 10; 10; 10; 32; 97; 32]);
    ([10; 9; 97; 13; 10; 32; 10; 97; 32; 13; 9; 98; 9; 10; 32; 32; 9; 32; 9], [10; 9; 97; 13; 10; 10; 97; 32; 13; 9; 98; 9; 10]);
    ([9; 12; 97; 32; 9; 13; 98; 32; 98; 97; 98; 97; 32], [12; 97; 32; 9; 13; 98; 32; 98; 97; 98; 97; 32]);
    ([10; 10; 32; 32; 9; 12; 10; 98; 32; 32; 32; 97; 32; 32; 32; 13; 9; 12; 98; 32; 9; 10], [10; 10; 32; 32; 9; 12; 10; 98; 32; 32; 32; 97; 32; 32; 32; 13; 9; 12; 98; 32; 9; 10]);
    ([9; 12; 12; 32; 12; 97; 13; 32; 97; 10; 10; 32; 10; 9; 32; 10; 10; 32; 32; 10; 12], [9; 12; 12; 32; 12; 97; 13; 32; 97; 10; 10; 10; 10; 10; 10; 12]);
    ([98; 12; 97; 10; 32], [98; 12; 97; 10]);
    ([32; 13; 12; 10; 12; 97; 98; 10; 98; 98; 97; 12; 98; 98], [32; 13; 12; 10; 12; 97; 98; 10; 98; 98; 97; 12; 98; 98]);
    ([98; 98; 98; 9; 32; 10; 12; 10], [98; 98; 98; 9; 32; 10; 12; 10]);
    ([98; 10; 10; 32; 32; 32; 32; 98; 12; 97; 13; 12; 97; 13; 32; 13; 13; 12; 97; 12; 98; 10; 98], [98; 10; 10; 32; 32; 32; 32; 98; 12; 97; 13; 12; 97; 13; 32; 13; 13; 12; 97; 12; 98; 10; 98]);
    ([32; 98; 12; 10; 97; 32; 12; 10; 10; 10; 13; 97; 12; 13; 10], [32; 98; 12; 10; 97; 32; 12; 10; 10; 10; 13; 97; 12; 13; 10]);
    ([32; 12; 97; 12; 10; 12; 9; 97], [32; 12; 97; 12; 10; 12; 9; 97]);
    ([9; 9; 13; 9; 32; 97; 98; 97; 98; 32; 98], [13; 9; 32; 97; 98; 97; 98; 32; 98]);
    ([10; 98; 32; 97; 97; 12; 12; 10], [10; 98; 32; 97; 97; 12; 12; 10]);
    ([32; 10; 98; 10; 13; 32; 13; 13; 9; 12; 9; 32; 9; 97; 13; 12; 10; 97], [10; 98; 10; 13; 32; 13; 13; 9; 12; 9; 32; 9; 97; 13; 12; 10; 97]);
    ([97; 98; 10; 32; 12; 10; 32; 10; 32; 9; 10; 12; 10; 97; 10; 10; 10; 13; 32; 12], [97; 98; 10; 32; 12; 10; 10; 10; 12; 10; 97; 10; 10; 10; 13; 32; 12]);
    ([32; 10; 9; 98; 10; 97; 32; 13; 98; 97; 32; 10; 98; 98; 10; 97; 10; 98; 9], [10; 9; 98; 10; 97; 32; 13; 98; 97; 32; 10; 98; 98; 10; 97; 10; 98; 9]);
    ([10; 97; 32; 10; 97; 32; 32; 13; 98; 98; 12; 98; 13; 32; 32; 13; 13; 98; 98; 13; 9; 32; 13], [10; 97; 32; 10; 97; 32; 32; 13; 98; 98; 12; 98; 13; 32; 32; 13; 13; 98; 98; 13; 9; 32; 13]);
    ([13; 9; 12; 32; 10; 10; 98; 12; 32; 10; 12; 97; 98; 13; 32; 32], [13; 9; 12; 32; 10; 10; 98; 12; 32; 10; 12; 97; 98; 13; 32; 32]);
    ([32; 32; 32; 13; 32; 10; 13; 32; 10; 97; 13], [32; 32; 32; 13; 32; 10; 13; 32; 10; 97; 13]);
    ([12; 98; 9; 98; 32], [12; 98; 9; 98; 32]);
    ([97; 97; 10; 12; 32; 9; 12; 10], [97; 97; 10; 12; 32; 9; 12; 10]);
    ([10; 32; 97; 98; 10; 10; 12; 98; 12; 98; 32; 10; 10; 10; 98; 98; 12; 10; 10; 10], [10; 32; 97; 98; 10; 10; 12; 98; 12; 98; 32; 10; 10; 10; 98; 98; 12; 10; 10; 10]);
    ([32; 10; 12; 97; 13; 13; 9; 97], [10; 12; 97; 13; 13; 9; 97]);
    ([10; 13; 12; 32; 97; 32; 12; 32; 98; 97; 32; 10; 10; 13], [10; 13; 12; 32; 97; 32; 12; 32; 98; 97; 32; 10; 10; 13]);
    ([10; 10; 13; 98; 13; 10; 10; 32; 9; 98; 32; 32; 9], [10; 10; 13; 98; 13; 10; 10; 32; 9; 98; 32; 32; 9]);
    ([13; 9; 32; 12; 9; 13], [13; 9; 32; 12; 9; 13]);
    ([10; 10; 12; 9; 9; 10; 12; 32; 13; 32; 10], [10; 10; 12; 9; 9; 10; 12; 32; 13; 32; 10]);
    ([32; 98; 10; 10; 13; 98], [32; 98; 10; 10; 13; 98]);
    ([32; 9; 32; 9; 13; 10; 10; 97], [32; 9; 32; 9; 13; 10; 10; 97]);
    ([9; 10; 10; 97; 12; 10; 9; 10; 98; 32; 97; 98; 9; 10; 10; 12; 32; 10; 13; 9; 9], [10; 10; 97; 12; 10; 10; 98; 32; 97; 98; 9; 10; 10; 12; 32; 10; 13; 9; 9]);
    ([97; 98; 32; 32; 97; 32; 10; 12; 12; 32; 10; 13; 97; 32; 13; 32; 10], [97; 98; 32; 32; 97; 32; 10; 12; 12; 32; 10; 13; 97; 32; 13; 32; 10]);
    ([10; 10; 12; 32; 10; 9; 13; 10; 10; 10; 32; 32; 32; 97; 10; 9; 10; 32; 9], [10; 10; 12; 32; 10; 9; 13; 10; 10; 10; 32; 32; 32; 97; 10; 10]);
    ([97; 13; 13; 10; 97; 97; 9; 32; 10; 32; 12; 13; 32; 12], [97; 13; 13; 10; 97; 97; 9; 32; 10; 32; 12; 13; 32; 12]);
    ([9; 98; 13; 32; 32; 32; 12], [98; 13; 32; 32; 32; 12]);
    ([32; 98; 9; 98; 97; 32; 97; 9; 97; 9; 32; 97; 32; 13; 10; 9; 10; 32; 32; 10; 32; 9], [98; 9; 98; 97; 32; 97; 9; 97; 9; 32; 97; 32; 13; 10; 10; 10]);
    ([10; 12; 12; 32; 97; 13; 10; 9; 12; 32; 12; 10; 97; 10; 10; 98; 12; 10; 9], [10; 12; 12; 32; 97; 13; 10; 9; 12; 32; 12; 10; 97; 10; 10; 98; 12; 10]);
    ([12; 12; 10; 32; 32; 32; 32; 13; 10; 10; 32], [12; 12; 10; 32; 32; 32; 32; 13; 10; 10]);
    ([9; 10; 32; 98; 98; 12; 32; 10; 32], [10; 98; 98; 12; 32; 10]);
    ([10; 10; 10; 12; 32; 10], [10; 10; 10; 12; 32; 10]);
    ([97; 32; 32; 10; 9; 10], [97; 32; 32; 10; 10]);
    ([32; 13; 9; 32; 97; 98; 98; 32; 32; 10; 9; 12; 9; 9], [32; 13; 9; 32; 97; 98; 98; 32; 32; 10; 9; 12; 9; 9]);
    ([9; 10; 10; 10; 97; 32; 32; 13; 32; 13; 12; 97; 32; 32; 10], [10; 10; 10; 97; 32; 32; 13; 32; 13; 12; 97; 32; 32; 10]);
    ([97; 98; 32; 97; 9], [97; 98; 32; 97; 9]);
    ([13; 9; 10; 10; 32; 13; 9; 98; 98; 12; 10; 12; 32; 32; 10; 10; 10; 10; 13], [13; 9; 10; 10; 32; 13; 9; 98; 98; 12; 10; 12; 32; 32; 10; 10; 10; 10; 13]);
    ([10; 13; 32; 98; 98; 97; 98; 98; 32; 10; 97; 98; 10; 32; 10; 13; 32; 32; 13; 98; 98], [10; 13; 32; 98; 98; 97; 98; 98; 32; 10; 97; 98; 10; 10; 13; 32; 32; 13; 98; 98]);
    ([10; 13; 9; 97; 12; 10; 32; 97; 98; 13; 32; 10; 97; 32; 10; 9; 13; 98; 12; 10; 32; 10; 32], [10; 13; 9; 97; 12; 10; 32; 97; 98; 13; 32; 10; 97; 32; 10; 9; 13; 98; 12; 10; 10]);
    ([9; 98; 10; 97; 9; 97; 9; 10; 97; 98; 10; 13; 97; 12; 10; 9], [9; 98; 10; 97; 9; 97; 9; 10; 97; 98; 10; 13; 97; 12; 10]);
    ([12; 32; 32; 9; 32; 10; 13; 10; 97; 32; 12; 12; 98; 9; 10; 98], [12; 32; 32; 9; 32; 10; 13; 10; 97; 32; 12; 12; 98; 9; 10; 98]);
    ([12; 97; 13; 10; 10; 97], [12; 97; 13; 10; 10; 97]);
    ([98; 12; 32; 13; 13; 97; 32; 32; 32; 12; 98; 13; 10], [98; 12; 32; 13; 13; 97; 32; 32; 32; 12; 98; 13; 10]);
    ([9; 13; 32; 97; 13; 9; 32; 10; 9; 10; 12; 32; 98; 9; 10; 10; 10; 12; 32; 98], [9; 13; 32; 97; 13; 9; 32; 10; 10; 12; 32; 98; 9; 10; 10; 10; 12; 32; 98]);
    ([98; 32; 98; 13; 97; 10; 97; 9; 13; 32; 12; 97; 9; 10; 12; 32; 9; 10; 12; 9; 10], [98; 32; 98; 13; 97; 10; 97; 9; 13; 32; 12; 97; 9; 10; 12; 32; 9; 10; 12; 9; 10]);
    ([10; 98; 97; 9; 10], [10; 98; 97; 9; 10]);
    ([13; 10; 97; 13; 98; 32; 10; 97; 98; 97; 98; 13; 10], [13; 10; 97; 13; 98; 32; 10; 97; 98; 97; 98; 13; 10]);
    ([10; 13; 12; 98; 9; 97; 32], [10; 13; 12; 98; 9; 97; 32]);
    ([10; 12; 13; 12; 98; 32; 10; 98], [10; 12; 13; 12; 98; 32; 10; 98]);
    ([98; 12; 10; 32; 10; 13; 32; 32; 12; 10; 97; 97; 10; 10; 32], [98; 12; 10; 10; 13; 32; 32; 12; 10; 97; 97; 10; 10]);
    ([32; 98; 32; 10; 9; 9; 32; 98; 98; 97; 98; 98; 13; 97; 97; 9; 9; 12; 12; 98; 10], [32; 98; 32; 10; 9; 9; 32; 98; 98; 97; 98; 98; 13; 97; 97; 9; 9; 12; 12; 98; 10]);
    ([10; 97; 32; 98; 32; 12; 32; 10], [10; 97; 32; 98; 32; 12; 32; 10]);
    ([98; 98; 10; 10; 9; 9; 10; 10; 12; 32; 10; 32; 98; 10; 9; 98; 10; 32; 12; 10; 10; 10], [98; 98; 10; 10; 10; 10; 12; 32; 10; 32; 98; 10; 9; 98; 10; 32; 12; 10; 10; 10]);
    ([32; 97; 32; 97; 32; 12; 32; 32; 97; 10; 32; 13; 9], [97; 32; 97; 32; 12; 32; 32; 97; 10; 13; 9]);
    ([10; 12; 32; 13; 12; 32; 32; 12; 13; 32; 13; 10; 10; 97; 97; 12; 10; 10], [10; 12; 32; 13; 12; 32; 32; 12; 13; 32; 13; 10; 10; 97; 97; 12; 10; 10]);
    ([10; 10; 12; 32; 10; 9; 32; 12; 10; 98; 97; 32; 10; 32; 32; 98; 98; 12; 98; 10; 32], [10; 10; 12; 32; 10; 9; 32; 12; 10; 98; 97; 32; 10; 32; 32; 98; 98; 12; 98; 10]);
    ([12; 97; 10; 32; 13; 9; 98; 13; 13; 10; 97; 10; 32; 98; 9], [12; 97; 10; 32; 13; 9; 98; 13; 13; 10; 97; 10; 32; 98; 9]);
    ([10; 32; 12; 32; 13; 10; 10; 10; 10; 12; 10; 32; 32], [10; 32; 12; 32; 13; 10; 10; 10; 10; 12; 10]);
    ([97; 10; 98; 32; 12; 10], [97; 10; 98; 32; 12; 10]);
    ([97; 9; 97; 97; 10; 32; 32; 9; 97; 98; 32; 13; 32; 97; 32; 9; 97; 13; 13; 32; 97], [97; 9; 97; 97; 10; 32; 32; 9; 97; 98; 32; 13; 32; 97; 32; 9; 97; 13; 13; 32; 97]);
    ([13; 9; 32; 12; 10; 12; 98; 10; 97; 10; 32; 10; 10; 12], [13; 9; 32; 12; 10; 12; 98; 10; 97; 10; 10; 10; 12]);
    ([98; 9; 98; 9; 9; 32; 32; 10; 12; 98; 32; 32; 32; 13; 32; 10; 12], [98; 9; 98; 9; 9; 32; 32; 10; 12; 98; 32; 32; 32; 13; 32; 10; 12]);
    ([97; 97; 12; 13; 13; 10], [97; 97; 12; 13; 13; 10]);
    ([10; 10; 97; 98], [10; 10; 97; 98]);
    ([32; 9; 10; 13; 13; 13; 32], [10; 13; 13; 13; 32]);
    ([32; 13; 9; 98; 10; 13; 13; 9; 32; 13; 98; 32; 10; 10; 32; 98; 10; 32; 10; 32; 10; 32], [32; 13; 9; 98; 10; 13; 13; 9; 32; 13; 98; 32; 10; 10; 32; 98; 10; 10; 10]);
    ([13; 32; 98; 10; 10], [13; 32; 98; 10; 10]);
    ([12; 98; 10; 32; 9], [12; 98; 10]);
    ([32; 13; 32; 32; 9; 9; 12; 9; 12; 97; 32; 12; 98; 32; 32; 32; 12; 32], [13; 32; 32; 9; 9; 12; 9; 12; 97; 32; 12; 98; 32; 32; 32; 12; 32]);
    ([12; 12; 32; 32; 12; 10; 13; 98; 32; 12; 10; 32; 9; 12; 13; 10; 32; 10; 98; 32], [12; 12; 32; 32; 12; 10; 13; 98; 32; 12; 10; 32; 9; 12; 13; 10; 10; 98; 32]);
    ([32; 12; 12; 97; 32; 32; 10; 32; 32; 97; 10; 10; 10; 10; 9; 13; 97; 10; 32; 32; 32; 32; 32], [32; 12; 12; 97; 32; 32; 10; 32; 32; 97; 10; 10; 10; 10; 9; 13; 97; 10]);
    ([10; 12; 98; 13; 98; 10; 32; 32; 32; 32; 9; 98; 32; 9; 10; 13; 10; 9; 10; 10; 97; 32; 97], [10; 12; 98; 13; 98; 10; 32; 32; 32; 32; 9; 98; 32; 9; 10; 13; 10; 10; 10; 97; 32; 97]);
    ([32; 9; 13; 9; 13; 97; 10; 10; 32; 98; 12; 32; 97; 10; 12; 97], [32; 9; 13; 9; 13; 97; 10; 10; 32; 98; 12; 32; 97; 10; 12; 97]);
    ([32; 10; 97; 32; 12; 9; 32; 32; 97; 98; 97; 97; 32; 12], [10; 97; 32; 12; 9; 32; 32; 97; 98; 97; 97; 32; 12]);
    ([13; 9; 10; 12; 32; 12; 10], [13; 9; 10; 12; 32; 12; 10]);
    ([12; 32; 10; 10; 10; 32; 10; 98; 32; 9; 13; 9; 10; 98; 10; 97; 10], [12; 32; 10; 10; 10; 10; 98; 32; 9; 13; 9; 10; 98; 10; 97; 10]);
    ([32; 10; 10; 9], [10; 10]);
    ([32; 98; 10; 32; 32; 32], [98; 10]);
    ([32; 32; 97; 32; 9; 12; 32; 13; 12; 10; 13; 9; 32; 10; 10; 98; 98; 9; 13; 32; 13], [32; 32; 97; 32; 9; 12; 32; 13; 12; 10; 13; 9; 32; 10; 10; 98; 98; 9; 13; 32; 13]);
    ([97; 10; 32; 98; 10; 32; 10; 97; 97; 10; 32; 10; 32; 32], [97; 10; 32; 98; 10; 10; 97; 97; 10; 10]);
    ([10; 10; 9; 32; 9; 13; 32; 32; 98], [10; 10; 13; 32; 32; 98]);
    ([32; 10; 32; 32; 10; 32; 10; 9; 97; 97; 12; 9], [10; 10; 10; 97; 97; 12; 9]);
    ([97; 10; 97; 97; 9; 12; 32; 10], [97; 10; 97; 97; 9; 12; 32; 10]);
    ([10; 98; 32; 10; 10; 10; 98; 97; 10], [10; 98; 32; 10; 10; 10; 98; 97; 10]);
    ([10; 32; 32; 32; 98; 97; 10; 10; 32; 13; 13; 13; 32; 32; 13; 12; 13; 32; 98], [10; 32; 32; 98; 97; 10; 10; 13; 13; 13; 32; 32; 13; 12; 13; 32; 98]);
    ([13; 13; 9; 10; 98; 13; 32], [13; 13; 9; 10; 98; 13; 32]);
    ([10; 32; 10; 97; 13; 13; 10], [10; 10; 97; 13; 13; 10]);
    ([12; 32; 32; 12; 10; 13; 10; 98; 32; 32; 98; 12; 32; 10], [12; 32; 32; 12; 10; 13; 10; 98; 32; 32; 98; 12; 32; 10]);
    ([9; 12; 97; 10; 32; 32; 13; 10; 13; 13; 9; 32; 13; 97; 32; 10; 10; 97; 32; 32], [9; 12; 97; 10; 32; 32; 13; 10; 13; 13; 9; 32; 13; 97; 32; 10; 10; 97; 32; 32]);
    ([13; 10; 9; 12; 32; 12; 32; 13; 32; 12; 10; 13; 9; 97; 9; 98; 97; 32; 97], [13; 10; 9; 12; 32; 12; 32; 13; 32; 12; 10; 13; 9; 97; 9; 98; 97; 32; 97]);
    ([10; 32; 13; 32; 13; 10; 32; 10; 13], [10; 32; 13; 32; 13; 10; 10; 13]);
    ([10; 10; 97; 10; 32; 98; 32; 9], [10; 10; 97; 10; 32; 98; 32; 9]);
    ([97; 13; 10; 32], [97; 13; 10]);
    ([97; 12; 13; 10; 10; 10; 13; 10; 10; 13; 10; 10; 97; 32; 98; 9; 97; 98; 32], [97; 12; 13; 10; 10; 10; 13; 10; 10; 13; 10; 10; 97; 32; 98; 9; 97; 98; 32]);
    ([97; 9; 10; 32; 9; 10; 13; 13; 12; 12; 98; 9; 10; 10; 12; 32; 10; 98; 9; 9; 12; 9], [97; 9; 10; 10; 13; 13; 12; 12; 98; 9; 10; 10; 12; 32; 10; 98; 9; 9; 12; 9]);
    ([97; 32; 9; 10; 98; 9; 32; 13; 98; 10; 10; 9; 10; 98; 32; 32; 98; 32; 32; 10; 32; 10], [97; 32; 9; 10; 98; 9; 32; 13; 98; 10; 10; 10; 98; 32; 32; 98; 32; 32; 10; 10]);
    ([9; 98; 32; 12; 98; 10; 12; 32; 13], [9; 98; 32; 12; 98; 10; 12; 32; 13]);
    ([13; 12; 97; 12; 12; 10; 98; 32; 10; 98; 9], [13; 12; 97; 12; 12; 10; 98; 32; 10; 98; 9]);
    ([10; 98; 97; 12; 10; 32; 32; 13; 10; 97; 32; 13], [10; 98; 97; 12; 10; 32; 32; 13; 10; 97; 32; 13]);
    ([97; 9; 13; 97; 10; 98; 32; 10; 12; 98; 98; 9; 10; 97; 97; 98; 13; 97; 9], [97; 9; 13; 97; 10; 98; 32; 10; 12; 98; 98; 9; 10; 97; 97; 98; 13; 97; 9]);
    ([10; 10; 32; 32; 12; 9; 98; 98; 32; 13; 13], [10; 10; 12; 9; 98; 98; 32; 13; 13]);
    ([12; 97; 97; 98; 97; 9; 13; 32; 9; 98; 97; 32; 10; 12], [12; 97; 97; 98; 97; 9; 13; 32; 9; 98; 97; 32; 10; 12]);
    ([10; 10; 97; 10; 10; 9; 32; 13; 32; 10], [10; 10; 97; 10; 10; 9; 32; 13; 32; 10]);
    ([12; 98; 12; 10], [12; 98; 12; 10]);
    ([32; 32; 9; 32], []);
    ([32; 9; 10; 9; 10; 10; 32; 32; 32; 32; 32], [10; 10; 10]);
    ([9; 13; 97; 32; 12; 97; 97; 10; 98; 13], [9; 13; 97; 32; 12; 97; 97; 10; 98; 13]);
    ([97; 32; 32; 10; 9; 10; 32; 32; 32; 10; 9; 97], [97; 32; 32; 10; 10; 10; 9; 97]);
    ([12; 13; 9; 10; 12; 32; 9; 98; 98; 10; 32; 10; 10; 32], [12; 13; 9; 10; 12; 32; 9; 98; 98; 10; 10; 10]);
    ([32; 32; 9; 10; 13; 13; 10; 32; 13; 98; 9; 32; 10; 10; 32; 13; 10; 10; 12], [10; 13; 13; 10; 32; 13; 98; 9; 32; 10; 10; 32; 13; 10; 10; 12]);
    ([12; 12; 97; 32; 32; 10; 32; 10; 12; 10; 10; 13; 10; 9; 10; 10; 10], [12; 12; 97; 32; 32; 10; 10; 12; 10; 10; 13; 10; 10; 10; 10]);
    ([9; 32; 10; 13; 97; 10; 98; 97], [10; 13; 97; 10; 98; 97]);
    ([10; 32; 97; 32; 10; 32; 97; 12; 10; 9; 9; 10; 13; 32; 10; 97; 32; 12; 12; 97], [10; 32; 97; 32; 10; 32; 97; 12; 10; 10; 13; 32; 10; 97; 32; 12; 12; 97]);
    ([12; 10; 32; 32; 32; 98; 98; 13; 32; 10; 12; 10; 13; 97; 13; 98; 97; 12; 13], [12; 10; 32; 32; 32; 98; 98; 13; 32; 10; 12; 10; 13; 97; 13; 98; 97; 12; 13]);
    ([32; 32; 13; 32; 10; 9; 32; 12; 9; 32; 13; 32; 10; 32], [32; 32; 13; 32; 10; 9; 32; 12; 9; 32; 13; 32; 10]);
    ([98; 12; 32; 9; 98; 32; 32; 32; 10; 9; 12; 32; 32; 97], [98; 12; 32; 9; 98; 32; 32; 32; 10; 9; 12; 32; 32; 97]);
    ([12; 98; 9; 10; 9; 98; 98; 97; 97], [12; 98; 9; 10; 9; 98; 98; 97; 97]);
    ([10; 13; 12; 32; 32; 10; 98], [10; 13; 12; 32; 32; 10; 98]);
    ([10; 9; 10; 13; 98; 10; 9; 10; 13; 32; 12; 97; 10; 32; 10; 12; 13; 9; 97], [10; 10; 13; 98; 10; 10; 13; 32; 12; 97; 10; 10; 12; 13; 9; 97]);
    ([9; 97; 10; 98; 32; 32; 10; 97; 32; 10; 32; 32; 97; 10], [9; 97; 10; 98; 32; 32; 10; 97; 32; 10; 32; 32; 97; 10]);
    ([10; 97; 10; 97; 97; 98; 98; 10; 32; 10; 32; 98; 10; 32], [10; 97; 10; 97; 97; 98; 98; 10; 10; 32; 98; 10]);
    ([9; 10; 10; 12; 97; 98; 98; 10; 9], [10; 10; 12; 97; 98; 98; 10]);
    ([12; 97; 32; 97; 9; 97; 9; 12; 32; 12; 13], [12; 97; 32; 97; 9; 97; 9; 12; 32; 12; 13]);
    ([13; 13; 10; 97; 97; 10; 32; 32; 32; 97; 32; 32; 10; 97], [13; 13; 10; 97; 97; 10; 32; 32; 32; 97; 32; 32; 10; 97]);
    ([32; 13; 32; 10; 13; 98], [32; 13; 32; 10; 13; 98]);
    ([13; 98; 10; 13; 97; 97; 10; 97; 32; 12; 32; 13; 13], [13; 98; 10; 13; 97; 97; 10; 97; 32; 12; 32; 13; 13]);
    ([32; 10; 10; 10; 97; 12; 97; 32; 32; 13; 98; 32; 9; 98; 32; 9; 12], [10; 10; 10; 97; 12; 97; 32; 32; 13; 98; 32; 9; 98; 32; 9; 12]);
    ([12; 97; 32; 10; 32; 10; 97; 98; 9; 98; 32; 98; 10], [12; 97; 32; 10; 10; 97; 98; 9; 98; 32; 98; 10]);
    ([10; 97; 12; 9; 13; 12; 12; 32; 9; 98; 12; 9; 9; 32], [10; 97; 12; 9; 13; 12; 12; 32; 9; 98; 12; 9; 9; 32]);
    ([32; 97; 32; 32; 10; 12; 32; 12; 10; 12; 13; 9; 12; 10; 9; 9; 13; 32; 98; 9; 10], [32; 97; 32; 32; 10; 12; 32; 12; 10; 12; 13; 9; 12; 10; 9; 9; 13; 32; 98; 9; 10]);
    ([10; 10; 98; 10; 12; 13; 32; 32; 32; 97; 9; 10; 12; 10; 10; 12; 9; 10; 9; 10; 32; 13; 10], [10; 10; 98; 10; 12; 13; 32; 32; 32; 97; 9; 10; 12; 10; 10; 12; 9; 10; 10; 32; 13; 10]);
    ([98; 12; 32; 13; 32; 13; 32; 32; 12; 98; 9; 97], [98; 12; 32; 13; 32; 13; 32; 32; 12; 98; 9; 97]);
    ([9; 10; 12; 97; 98; 10; 10; 10; 9; 98; 97; 98; 10; 10; 9; 10; 13; 32], [10; 12; 97; 98; 10; 10; 10; 9; 98; 97; 98; 10; 10; 10; 13; 32]);
    ([10; 97; 32; 12; 10; 9; 98; 13], [10; 97; 32; 12; 10; 9; 98; 13]);
    ([13; 13; 10; 13; 12; 10; 13; 12; 9; 12; 9; 10; 32; 97; 98; 32; 98; 32], [13; 13; 10; 13; 12; 10; 13; 12; 9; 12; 9; 10; 32; 97; 98; 32; 98; 32]);
    ([98; 97; 97; 98; 9; 13; 12; 32; 32; 13; 97; 12; 98; 98; 10], [98; 97; 97; 98; 9; 13; 12; 32; 32; 13; 97; 12; 98; 98; 10]);
    ([12; 32; 9; 97; 98; 97; 10; 97; 9], [12; 32; 9; 97; 98; 97; 10; 97; 9]);
    ([12; 98; 9; 10; 32; 9; 32; 97; 13; 13; 13; 10; 97; 12; 32; 97; 12; 12; 97; 13; 32], [12; 98; 9; 10; 32; 9; 32; 97; 13; 13; 13; 10; 97; 12; 32; 97; 12; 12; 97; 13; 32]);
    ([10; 98; 10; 32; 97; 98; 32; 97; 12; 32; 10; 97; 10; 13], [10; 98; 10; 32; 97; 98; 32; 97; 12; 32; 10; 97; 10; 13]);
    ([98; 32; 32; 10; 10; 32; 9; 9; 10], [98; 32; 32; 10; 10; 10]);
    ([10; 32; 98; 10; 32; 32; 9; 12; 12; 32; 9], [10; 98; 10; 32; 9; 12; 12; 32; 9]);
    ([10; 32; 13; 98; 98; 32; 9; 9; 10; 32; 32; 32; 9; 32; 32; 32; 97], [10; 13; 98; 98; 32; 9; 9; 10; 32; 32; 9; 32; 32; 32; 97]);
    ([32; 13; 9; 32; 9; 10; 97; 10; 97], [32; 13; 9; 32; 9; 10; 97; 10; 97]);
    ([98; 97; 98; 98; 10; 13; 10], [98; 97; 98; 98; 10; 13; 10]);
    ([32; 9; 9; 9; 9; 97; 32; 13; 12; 32; 13; 12; 32; 13; 13; 32; 97; 98; 12], [97; 32; 13; 12; 32; 13; 12; 32; 13; 13; 32; 97; 98; 12]);
    ([32; 12; 12; 9; 13; 9; 98; 9], [12; 12; 9; 13; 9; 98; 9]);
    ([12; 12; 32; 97], [12; 12; 32; 97]);
    ([10; 98; 98; 97; 13; 9; 97; 98; 10; 10; 10; 32; 97; 97; 12; 10; 97], [10; 98; 98; 97; 13; 9; 97; 98; 10; 10; 10; 32; 97; 97; 12; 10; 97]);
    ([12; 13; 10; 32; 13; 32; 9; 98; 32], [12; 13; 10; 32; 13; 32; 9; 98; 32]);
    ([98; 10; 12; 98; 32; 32; 9; 32; 98; 10; 32; 98; 13; 10; 32; 13; 97; 32; 32; 13; 10; 10], [98; 10; 12; 98; 32; 32; 9; 32; 98; 10; 32; 98; 13; 10; 32; 13; 97; 32; 32; 13; 10; 10]);
    ([10; 10; 97; 10; 12; 12], [10; 10; 97; 10; 12; 12]);
    ([98; 10; 13; 97; 98; 13; 32; 32; 9; 10; 32; 12; 9; 97; 98; 10; 10; 12; 32; 13], [98; 10; 13; 97; 98; 13; 32; 32; 9; 10; 32; 12; 9; 97; 98; 10; 10; 12; 32; 13]);
    ([32; 32; 32; 32; 10; 13; 13; 32; 10; 97; 9; 9; 32; 9; 12; 10; 97; 9; 9], [10; 13; 13; 32; 10; 97; 9; 9; 32; 9; 12; 10; 97; 9; 9]);
    ([13; 10; 10; 10; 32; 10; 9; 10; 32; 98; 12], [13; 10; 10; 10; 10; 10; 32; 98; 12]);
    ([13; 10; 32; 98; 13; 97; 32; 98; 10; 13; 13; 12; 10; 10; 9; 12; 32; 12; 97; 98; 9; 9; 13], [13; 10; 32; 98; 13; 97; 32; 98; 10; 13; 13; 12; 10; 10; 9; 12; 32; 12; 97; 98; 9; 9; 13]);
    ([13; 10; 97; 32; 12; 13; 97; 9; 97; 32; 97; 98; 32; 9; 13; 10; 97; 98; 12], [13; 10; 97; 32; 12; 13; 97; 9; 97; 32; 97; 98; 32; 9; 13; 10; 97; 98; 12]);
    ([97; 32; 97; 10; 13; 32; 10; 13; 97], [97; 32; 97; 10; 13; 32; 10; 13; 97]);
    ([97; 13; 10; 12; 9; 97; 10; 10; 10; 10; 10; 32; 98; 32; 10; 12; 32; 10; 12; 12; 32; 10], [97; 13; 10; 12; 9; 97; 10; 10; 10; 10; 10; 32; 98; 32; 10; 12; 32; 10; 12; 12; 32; 10]);
    ([10; 32; 10; 32; 10; 32; 98], [10; 10; 10; 98]);
    ([10; 97; 32; 12; 98; 97], [10; 97; 32; 12; 98; 97]);
    ([12; 9; 32; 10; 9; 10; 32; 10; 32; 10; 12; 97; 98; 98; 32; 32; 98; 32; 10; 12; 9; 98], [12; 9; 32; 10; 10; 10; 10; 12; 97; 98; 98; 32; 32; 98; 32; 10; 12; 9; 98]);
    ([32; 32; 32; 98; 12; 98; 9; 97; 97; 12; 9; 97; 97; 10; 12], [32; 32; 32; 98; 12; 98; 9; 97; 97; 12; 9; 97; 97; 10; 12]);
    ([9; 9; 9; 9; 32; 32; 9; 10], [10]);
    ([32; 12; 13; 98; 13; 12; 32; 32; 10; 98; 9; 10; 32; 10; 97; 10; 32; 13; 98; 98], [32; 12; 13; 98; 13; 12; 32; 32; 10; 98; 9; 10; 10; 97; 10; 32; 13; 98; 98]);
    ([9; 32; 97; 98; 10; 9; 32; 9; 97; 98], [97; 98; 10; 9; 97; 98]);
    ([32; 97; 98; 10; 97; 98; 10; 32; 97; 98], [32; 97; 98; 10; 97; 98; 10; 32; 97; 98]);
    ([32; 32; 97; 98; 10; 32; 97; 98], [32; 97; 98; 10; 97; 98]);
    ([32; 32; 9; 9; 97; 98], [97; 98]);
    ([32; 32; 97; 98; 10; 32; 10; 32; 9; 97; 98], [32; 97; 98; 10; 10; 9; 97; 98]);
    ([10; 9; 9; 97; 98], [10; 97; 98]);
    ([32; 32; 9; 32; 97; 98], [97; 98]);
    ([9; 32; 32; 97; 98; 10; 9; 32; 10; 9; 32; 32; 97; 98], [97; 98; 10; 10; 97; 98]);
    ([10; 32; 97; 98], [10; 97; 98]);
    ([32; 97; 98; 10; 10; 32; 97; 98; 10; 32; 97; 98], [97; 98; 10; 10; 97; 98; 10; 97; 98]);
    ([32; 9; 10; 32; 9; 9; 97; 98], [10; 97; 98]);
    ([9; 97; 98; 10; 32], [97; 98; 10]);
    ([97; 98], [97; 98]);
    ([9; 97; 98; 10], [97; 98; 10]);
    ([9; 9; 32; 97; 98; 10], [97; 98; 10]);
    ([9; 97; 98; 10; 9; 97; 98; 10; 9; 97; 98; 10], [97; 98; 10; 97; 98; 10; 97; 98; 10]);
    ([10; 97; 98], [10; 97; 98]);
    ([9; 9; 97; 98; 10; 9; 9; 32; 97; 98], [97; 98; 10; 32; 97; 98]);
    ([9; 9; 97; 98; 10; 9; 9; 97; 98; 10; 32], [97; 98; 10; 97; 98; 10]);
    ([32; 9; 97; 98; 10; 32; 10; 10; 32; 9; 97; 98], [97; 98; 10; 10; 10; 97; 98]);
    ([9; 9; 32; 32; 97; 98; 10; 9; 9; 32; 9; 97; 98; 10; 9; 9; 32; 10; 9; 9; 32; 9; 97; 98], [32; 97; 98; 10; 9; 97; 98; 10; 10; 9; 97; 98]);
    ([9; 32; 97; 98; 10; 9; 32; 97; 98; 10; 9; 97; 98], [32; 97; 98; 10; 32; 97; 98; 10; 97; 98]);
    ([9; 9; 97; 98; 10; 32; 10; 9], [97; 98; 10; 10]);
    ([32; 9; 9; 32; 97; 98; 10; 32], [97; 98; 10]);
    ([9; 32; 97; 98], [97; 98]);
    ([32; 32; 9; 32; 97; 98; 10; 10; 32; 32; 9; 9; 97; 98; 10], [32; 97; 98; 10; 10; 9; 97; 98; 10]);
    ([9; 32; 97; 98; 10; 9; 32; 32; 97; 98], [97; 98; 10; 32; 97; 98]);
    ([9; 9; 32; 32; 97; 98; 10; 9; 9; 32; 9; 97; 98; 10; 9; 9; 32; 32; 97; 98; 10; 9; 9; 32; 9; 97; 98], [32; 97; 98; 10; 9; 97; 98; 10; 32; 97; 98; 10; 9; 97; 98]);
    ([32; 10; 9; 97; 98], [10; 97; 98]);
    ([32; 10; 9; 9; 97; 98; 10; 9; 97; 98], [10; 9; 97; 98; 10; 97; 98]);
    ([32; 32; 32; 32; 97; 98; 10; 32; 32; 32; 97; 98; 10; 32; 32; 32; 97; 98; 10; 32; 32; 32; 32; 97; 98], [32; 97; 98; 10; 97; 98; 10; 97; 98; 10; 32; 97; 98]);
    ([9; 97; 98; 10; 9; 97; 98], [97; 98; 10; 97; 98]);
    ([9; 9; 97; 98; 10; 9; 9; 10; 9; 9; 9; 97; 98; 10; 9; 9; 9; 97; 98], [97; 98; 10; 10; 9; 97; 98; 10; 9; 97; 98]);
    ([9; 32; 32; 9; 97; 98; 10; 9; 32; 32; 97; 98; 10; 9; 32; 32; 97; 98], [9; 97; 98; 10; 97; 98; 10; 97; 98]);
    ([9; 9; 97; 98], [97; 98]);
    ([32; 10; 9; 9; 9; 32; 97; 98], [10; 97; 98]);
    ([32; 32; 32; 97; 98; 10; 32; 32; 9; 97; 98; 10; 32; 32; 32; 97; 98; 10; 32; 32; 9; 97; 98], [32; 97; 98; 10; 9; 97; 98; 10; 32; 97; 98; 10; 9; 97; 98]);
    ([32; 10; 32; 9; 32; 97; 98; 10], [10; 97; 98; 10]);
    ([9; 97; 98; 10; 32; 10; 9; 32; 97; 98], [97; 98; 10; 10; 32; 97; 98]);
    ([32; 97; 98], [97; 98]);
    ([32; 9; 9; 97; 98; 10; 32; 9; 9; 9; 97; 98], [97; 98; 10; 9; 97; 98]);
    ([9; 97; 98; 10; 9; 32; 97; 98], [97; 98; 10; 32; 97; 98]);
    ([32; 32; 32; 97; 98; 10; 32; 32; 32; 97; 98; 10; 32; 32; 9; 97; 98; 10; 32; 32; 97; 98], [32; 97; 98; 10; 32; 97; 98; 10; 9; 97; 98; 10; 97; 98]);
    ([32; 10; 32; 9; 32; 97; 98], [10; 97; 98]);
    ([9; 9; 32; 97; 98], [97; 98]);
    ([10; 32; 32; 9; 97; 98; 10; 32; 32; 9; 97; 98], [10; 97; 98; 10; 97; 98]);
    ([9; 32; 97; 98; 10; 9; 97; 98; 10; 32; 10; 9; 9; 97; 98], [32; 97; 98; 10; 97; 98; 10; 10; 9; 97; 98]);
    ([32; 97; 98; 10; 32; 10; 32; 32; 97; 98], [97; 98; 10; 10; 32; 97; 98]);
    ([9; 9; 32; 97; 98; 10; 9; 9; 32; 9; 97; 98; 10; 9; 9; 32; 32; 97; 98], [97; 98; 10; 9; 97; 98; 10; 32; 97; 98]);
    ([32; 32; 97; 98; 10; 32; 97; 98; 10; 32; 97; 98; 10; 32; 97; 98], [32; 97; 98; 10; 97; 98; 10; 97; 98; 10; 97; 98]);
    ([32; 9; 97; 98; 10; 32; 9; 32; 97; 98; 10; 32; 9; 97; 98], [97; 98; 10; 32; 97; 98; 10; 97; 98]);
    ([10; 9; 32; 9; 97; 98; 10; 9; 32; 97; 98], [10; 9; 97; 98; 10; 97; 98]);
    ([9; 9; 9; 97; 98; 10; 9; 9; 9; 9; 97; 98], [97; 98; 10; 9; 97; 98]);
    ([9; 32; 97; 98; 10; 9; 97; 98], [32; 97; 98; 10; 97; 98]);
    ([97; 98; 10; 32], [97; 98; 10]);
    ([9; 97; 98; 10; 9; 97; 98; 10; 9; 9; 97; 98; 10; 9; 9; 97; 98], [97; 98; 10; 97; 98; 10; 9; 97; 98; 10; 9; 97; 98]);
    ([32; 9; 32; 32; 97; 98; 10], [97; 98; 10]);
    ([9; 32; 10; 10; 9; 32; 9; 97; 98], [10; 10; 97; 98]);
    ([32; 32; 32; 97; 98], [97; 98]);
    ([9; 32; 32; 32; 97; 98; 10; 9; 32; 32; 32; 97; 98], [97; 98; 10; 97; 98]);
    ([32; 9; 9; 9; 97; 98], [97; 98]);
    ([9; 9; 9; 32; 97; 98; 10], [97; 98; 10]);
    ([9; 9; 97; 98; 10; 9; 97; 98], [9; 97; 98; 10; 97; 98]);
    ([32; 32; 97; 98; 10; 32; 9; 97; 98; 10; 32; 97; 98; 10; 32], [32; 97; 98; 10; 9; 97; 98; 10; 97; 98; 10]);
    ([10; 9; 97; 98; 10; 32; 97; 98], [10; 9; 97; 98; 10; 32; 97; 98]);
    ([32; 32; 97; 98], [97; 98]);
    ([32; 9; 9; 97; 98; 10; 32; 9; 32; 97; 98], [9; 97; 98; 10; 32; 97; 98]);
    ([9; 9; 32; 32; 97; 98; 10; 9; 9; 32; 32; 97; 98; 10; 9; 9; 32; 9; 97; 98; 10; 9; 9; 32; 32; 97; 98], [32; 97; 98; 10; 32; 97; 98; 10; 9; 97; 98; 10; 32; 97; 98]);
    ([10; 32; 32; 10; 32; 32; 32; 97; 98; 10; 32; 32; 9; 97; 98], [10; 10; 32; 97; 98; 10; 9; 97; 98]);
    ([32; 32; 9; 32; 97; 98; 10; 32; 32; 9; 97; 98; 10], [32; 97; 98; 10; 97; 98; 10]);
    ([9; 32; 9; 10; 10], [10; 10]);
    ([9; 97; 98], [97; 98]);
    ([10; 9; 97; 98], [10; 97; 98]);
    ([9; 32; 32; 9; 97; 98], [97; 98]);
    ([32; 10; 9; 32; 97; 98; 10; 9; 32; 97; 98; 10; 9], [10; 97; 98; 10; 97; 98; 10]);
    ([32; 9; 9; 97; 98], [97; 98]);
    ([9; 9; 9; 97; 98; 10; 32], [97; 98; 10]);
    ([32; 10; 9; 97; 98; 10; 9; 9; 97; 98; 10; 32], [10; 97; 98; 10; 9; 97; 98; 10]);
    ([9; 97; 98; 10; 9; 97; 98; 10; 9; 97; 98], [97; 98; 10; 97; 98; 10; 97; 98]);
    ([32; 32; 9; 97; 98; 10; 32; 32; 97; 98; 10; 32; 32; 32; 97; 98; 10; 32; 32; 32; 97; 98], [9; 97; 98; 10; 97; 98; 10; 32; 97; 98; 10; 32; 97; 98]);
    ([9; 9; 97; 98; 10; 9; 32; 97; 98; 10], [9; 97; 98; 10; 32; 97; 98; 10]);
    ([32; 97; 98; 10; 32; 97; 98], [97; 98; 10; 97; 98]);
    ([9; 9; 9; 9; 97; 98; 10], [97; 98; 10]);
    ([32; 97; 98; 10; 32; 97; 98; 10; 32; 97; 98; 10; 32; 32; 97; 98], [97; 98; 10; 97; 98; 10; 97; 98; 10; 32; 97; 98]);
    ([10; 9; 32; 97; 98; 10; 9; 32; 97; 98], [10; 97; 98; 10; 97; 98]);
    ([9; 32; 32; 97; 98; 10], [97; 98; 10]);
    ([10; 9; 32; 32; 97; 98; 10; 9; 32; 32; 97; 98; 10; 9; 32; 32; 9; 97; 98], [10; 97; 98; 10; 97; 98; 10; 9; 97; 98]);
    ([32; 97; 98; 10; 32; 10; 32; 97; 98; 10; 97; 98], [32; 97; 98; 10; 10; 32; 97; 98; 10; 97; 98]);
    ([97; 98; 10; 9; 97; 98; 10; 97; 98], [97; 98; 10; 9; 97; 98; 10; 97; 98]);
    ([32; 10; 32; 32; 9; 97; 98; 10; 32; 32], [10; 97; 98; 10]);
    ([9; 9; 9; 32; 97; 98; 10; 9; 9; 9; 9; 97; 98; 10; 9; 9; 9; 97; 98; 10; 32], [32; 97; 98; 10; 9; 97; 98; 10; 97; 98; 10]);
    ([32; 10; 32; 32; 97; 98], [10; 97; 98]);
    ([10; 9; 97; 98; 10; 32; 97; 98; 10], [10; 9; 97; 98; 10; 32; 97; 98; 10]);
    ([10; 32; 97; 98; 10; 9; 97; 98; 10; 97; 98], [10; 32; 97; 98; 10; 9; 97; 98; 10; 97; 98]);
    ([9; 9; 9; 9; 97; 98], [97; 98]);
    ([32; 9; 97; 98; 10; 32; 9; 9; 97; 98; 10; 32; 9; 32; 97; 98], [97; 98; 10; 9; 97; 98; 10; 32; 97; 98]);
    ([32; 97; 98; 10; 9; 97; 98; 10; 97; 98; 10; 32; 97; 98], [32; 97; 98; 10; 9; 97; 98; 10; 97; 98; 10; 32; 97; 98]);
    ([32; 9; 97; 98; 10; 32; 9; 97; 98; 10; 32; 9; 32; 97; 98], [97; 98; 10; 97; 98; 10; 32; 97; 98]);
    ([32; 9; 32; 97; 98; 10; 32; 9; 32; 9; 97; 98; 10; 32; 9; 32; 9; 97; 98], [97; 98; 10; 9; 97; 98; 10; 9; 97; 98]);
    ([9; 97; 98; 10; 9; 97; 98; 10; 9; 97; 98; 10; 32; 97; 98], [9; 97; 98; 10; 9; 97; 98; 10; 9; 97; 98; 10; 32; 97; 98]);
    ([97; 98; 10; 32; 10; 97; 98], [97; 98; 10; 10; 97; 98]);
    ([32; 32; 32; 97; 98; 10; 32; 32; 97; 98], [32; 97; 98; 10; 97; 98]);
    ([32; 9; 9; 32; 97; 98], [97; 98]);
    ([32; 32; 97; 98; 10; 32; 32; 97; 98; 10; 10; 32; 32; 97; 98], [97; 98; 10; 97; 98; 10; 10; 97; 98]);
    ([9; 97; 98; 10; 32; 97; 98], [9; 97; 98; 10; 32; 97; 98]);
    ([32; 32; 97; 98; 10; 32; 9; 97; 98; 10; 32; 32; 97; 98], [32; 97; 98; 10; 9; 97; 98; 10; 32; 97; 98]);
    ([32; 32; 97; 98; 10; 32; 32; 97; 98; 10; 32; 32; 97; 98], [97; 98; 10; 97; 98; 10; 97; 98]);
    ([9; 32; 10; 9; 32; 97; 98; 10; 10; 9; 32; 97; 98], [10; 97; 98; 10; 10; 97; 98]);
    ([10; 97; 98; 10; 32; 97; 98; 10; 97; 98], [10; 97; 98; 10; 32; 97; 98; 10; 97; 98]);
    ([97; 98; 10; 32; 97; 98; 10; 32; 97; 98; 10; 9; 97; 98], [97; 98; 10; 32; 97; 98; 10; 32; 97; 98; 10; 9; 97; 98]);
    ([32; 32; 32; 97; 98; 10; 32; 10; 32; 32; 32; 97; 98; 10; 32; 32; 97; 98], [32; 97; 98; 10; 10; 32; 97; 98; 10; 97; 98]);
    ([10; 32; 97; 98; 10; 32; 97; 98; 10; 32], [10; 97; 98; 10; 97; 98; 10]);
    ([9; 32; 97; 98; 10; 9; 32; 97; 98], [97; 98; 10; 97; 98]);
    ([32; 32; 9; 9; 97; 98; 10; 32; 32; 9], [97; 98; 10]);
    ([9; 9; 9; 10; 9; 9; 9; 97; 98], [10; 97; 98]);
    ([32; 9; 9; 97; 98; 10; 32; 9; 9; 97; 98; 10; 32; 9; 9; 32; 97; 98], [97; 98; 10; 97; 98; 10; 32; 97; 98]);
    ([9; 32; 9; 97; 98; 10; 9; 32; 32; 97; 98; 10; 9; 32; 32; 97; 98; 10; 9; 32; 97; 98], [9; 97; 98; 10; 32; 97; 98; 10; 32; 97; 98; 10; 97; 98]);
    ([9; 97; 98; 10; 32; 97; 98; 10; 9; 97; 98], [9; 97; 98; 10; 32; 97; 98; 10; 9; 97; 98]);
    ([32; 32; 9; 10; 32; 32; 9; 9; 97; 98; 10; 32; 32; 9; 32; 97; 98], [10; 9; 97; 98; 10; 32; 97; 98]);
    ([32; 10; 32; 97; 98], [10; 97; 98]);
    ([9; 9; 97; 98; 10; 9; 97; 98; 10], [9; 97; 98; 10; 97; 98; 10]);
    ([32; 9; 97; 98], [97; 98]);
    ([9; 32; 9; 97; 98; 10; 9; 32; 97; 98], [9; 97; 98; 10; 97; 98]);
    ([9; 9; 9; 10; 9; 9; 9], [10]);
    ([32; 32; 9; 97; 98; 10; 32; 32; 97; 98; 10; 32], [9; 97; 98; 10; 97; 98; 10]);
    ([10; 9; 9; 97; 98; 10; 9; 9; 9; 97; 98; 10; 9; 9; 9; 97; 98], [10; 97; 98; 10; 9; 97; 98; 10; 9; 97; 98]);
    ([9; 32; 9; 97; 98; 10; 9; 32; 97; 98; 10; 9; 32; 97; 98; 10; 9; 32; 97; 98], [9; 97; 98; 10; 97; 98; 10; 97; 98; 10; 97; 98]);
    ([32; 10; 9; 32; 9; 97; 98; 10; 9; 32; 9; 97; 98], [10; 97; 98; 10; 97; 98]);
    ([9; 9; 97; 98; 10; 9; 32; 97; 98; 10; 9; 97; 98; 10; 9], [9; 97; 98; 10; 32; 97; 98; 10; 97; 98; 10]);
    ([32; 32; 97; 98; 10; 32], [97; 98; 10]);
    ([32; 10; 32; 9; 97; 98; 10; 32; 32; 97; 98], [10; 9; 97; 98; 10; 32; 97; 98]);
    ([9; 32; 32; 97; 98; 10; 9; 32; 32; 97; 98], [97; 98; 10; 97; 98]);
    ([32; 10; 9; 32; 32; 97; 98; 10; 9; 32], [10; 97; 98; 10]);
    ([9; 97; 98; 10; 10], [97; 98; 10; 10]);
    ([9; 9; 32; 9; 97; 98; 10; 9; 9; 32; 9; 97; 98; 10; 9; 9; 32], [97; 98; 10; 97; 98; 10]);
    ([32; 32; 97; 98; 10; 10; 32; 32; 97; 98], [97; 98; 10; 10; 97; 98]);
    ([32; 32; 97; 98; 10; 32; 32; 97; 98], [97; 98; 10; 97; 98]);
    ([32; 32; 32; 97; 98; 10; 32], [97; 98; 10]);
    ([32; 32; 32; 97; 98; 10; 32; 10; 32; 32; 9; 97; 98], [32; 97; 98; 10; 10; 9; 97; 98]);
    ([97; 98; 10; 9; 97; 98], [97; 98; 10; 9; 97; 98]);
    ([9; 32; 32; 97; 98; 10; 9; 32; 10; 9; 32; 10; 9; 32; 97; 98], [32; 97; 98; 10; 10; 10; 97; 98]);
    ([32; 9; 97; 98; 10; 10; 32; 97; 98; 10; 32], [9; 97; 98; 10; 10; 97; 98; 10]);
    ([32; 10; 32; 10; 9; 32; 32; 97; 98; 10; 9; 32; 32; 97; 98], [10; 10; 97; 98; 10; 97; 98]);
    ([10; 32; 32; 9; 97; 98; 10; 32; 32; 97; 98; 10; 32; 32; 97; 98], [10; 9; 97; 98; 10; 97; 98; 10; 97; 98]);
    ([32; 9; 97; 98; 10; 32; 9; 97; 98], [97; 98; 10; 97; 98]);
    ([32; 9; 97; 98; 10; 32; 9; 9; 97; 98; 10; 10; 32; 9; 9; 97; 98], [97; 98; 10; 9; 97; 98; 10; 10; 9; 97; 98]);
    ([32; 97; 98; 10; 97; 98; 10; 32; 10; 97; 98], [32; 97; 98; 10; 97; 98; 10; 10; 97; 98]);
    ([32; 10; 9; 9; 32; 97; 98], [10; 97; 98]);
    ([9; 97; 98; 10; 9; 97; 98; 10; 10; 9; 97; 98], [97; 98; 10; 97; 98; 10; 10; 97; 98]);
    ([32; 97; 98; 10; 32; 10; 32; 32; 97; 98; 10; 32; 97; 98], [97; 98; 10; 10; 32; 97; 98; 10; 97; 98]);
    ([32; 32; 32; 97; 98; 10; 32; 32; 32; 97; 98; 10; 32; 32; 97; 98], [32; 97; 98; 10; 32; 97; 98; 10; 97; 98]);
    ([9; 9; 9; 97; 98], [97; 98]);
    ([9; 32; 10; 9; 32; 97; 98; 10; 9; 32; 32; 97; 98; 10; 9; 32; 32; 97; 98], [10; 97; 98; 10; 32; 97; 98; 10; 32; 97; 98]);
    ([32; 10; 10; 9; 32; 32; 32; 97; 98], [10; 10; 97; 98]);
    ([9; 32; 32; 9; 97; 98; 10; 9; 32; 32; 32; 97; 98], [9; 97; 98; 10; 32; 97; 98]);
    ([9; 32; 32; 32; 97; 98; 10; 32], [97; 98; 10]);
    ([32; 32; 9; 10; 32; 32; 9; 32; 97; 98], [10; 97; 98]);
    ([97; 98; 10; 32; 97; 98], [97; 98; 10; 32; 97; 98]);
    ([97; 98; 10; 9; 97; 98; 10; 9; 97; 98; 10; 32; 97; 98], [97; 98; 10; 9; 97; 98; 10; 9; 97; 98; 10; 32; 97; 98]) ].

Example dedent_conforms : forallb (fun c => str_eqb (dedent (fst c)) (snd c)) dedent_cases = true.
Proof. vm_compute. reflexivity. Qed.
