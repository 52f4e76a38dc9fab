(** * Format: the formatting styles (fixit/format.py) *)
From Coq Require Import String List NArith Bool Arith.
From Verif Require Import Base PyStr Ftypes Paths Config Suppress Cst Engine Api.
Import ListNotations.
Set Implicit Arguments.

(** A formatter as [FORMAT_STYLES] holds it: what [format(module, path)] makes of the module's bytes
    (all formatters here start from [module.bytes]); it may look at the file system. *)
Definition formatter := fs -> str -> path -> res str.

(** Other code used by the two formatters. Simplification: [import black] and [import ufmt] succeed. *)
Record printers := Printers {
  b_mode : Type;                                      (* black.Mode *)
  b_config : fs -> path -> res b_mode;                (* ufmt.util.make_black_config *)
  b_format : b_mode -> str -> res str;                (* black.format_str *)
  b_check : b_mode -> str -> str -> res unit;         (* black's check of what it has done (fast=False) *)
  b_decode : str -> res str;                          (* bytes.decode("utf-8") *)
  b_encode : str -> res str;                          (* str.encode("utf-8") *)
  u_sort : Type;                                      (* ufmt.UsortConfig *)
  u_config : fs -> path -> res u_sort;                (* ufmt.UsortConfig.find *)
  u_bytes : path -> str -> b_mode -> u_sort -> res str  (* ufmt.ufmt_bytes *)
}.

(** black.NothingChanged *)
Definition NothingChanged : exn := OtherError 77.

(** [black.format_file_contents(src, fast=False, mode=mode)]: raises NothingChanged if there is nothing
    to do. (Outside of /repo; its documented behaviour, for modes other than notebooks.) *)
Definition format_file_contents (B : printers) (mode : b_mode B) (src : str) : res str :=
  let! dst := b_format B mode src in
  if str_eqb src dst then Err NothingChanged
  else let! _ := b_check B mode src dst in Ok dst.

(** format.py 31-35 [Formatter.format] *)
Definition plain_format : formatter := fun _ b _ => Ok b.

(** format.py 41-49 [BlackFormatter.format] *)
Definition black_format (B : printers) : formatter := fun F b p =>
  let! mode := b_config B F p in
  let! src := b_decode B b in
  let! content := format_file_contents B mode src in
  b_encode B content.

(** format.py 55-64 [UfmtFormatter.format] *)
Definition ufmt_format (B : printers) : formatter := fun F b p =>
  let! black_config := b_config B F p in
  let! usort_config := u_config B F p in
  u_bytes B p b black_config usort_config.

(** ** The registry *)

(** format.py 20, 82 [FORMAT_STYLES]: text keys, and the entry for None apart.
    Simplification: STYLE is a text (None as STYLE would replace the entry for None). *)
Record registry := Registry { r_none : formatter; r_styles : dict formatter }.

(** format.py 32-33 [__init_subclass__] *)
Definition define_class (r : registry) (c : str * formatter) : registry :=
  Registry (r_none r) (dset (fst c) (snd c) (r_styles r)).

(** The state after importing format.py (37-82) and then defining the classes [cs]. *)
Definition styles (B : printers) (cs : list (str * formatter)) : registry :=
  fold_left define_class cs
    (Registry plain_format
       (r_styles (fold_left define_class [(u "black", black_format B); (u "ufmt", ufmt_format B)]
                    (Registry plain_format [])))).

(** [FORMAT_STYLES[style]] for the styles that are texts: the field [t_style] of Api.v *)
Definition style_of (r : registry) (s : str) : option formatter := dget s (r_styles r).

(** The [tool] of Api.v with these styles. *)
Definition with_styles (T : tool) (r : registry) : tool :=
  Tool (t_env T) (t_collect T) (t_parse T) (t_visit T) (t_udiff T) (t_bytes T) (style_of r) (t_walk T).

(** format.py 72-82 [FORMAT_STYLES[config.formatter]]: the formatter of a configuration, with the entry for None. *)
Definition formatter_of (r : registry) (style : option str) : option formatter :=
  match style with None => Some (r_none r) | Some s => style_of r s end.
