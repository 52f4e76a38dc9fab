(** * Serve: how the language server is started (fixit/cli.py 247-278, fixit/lsp.py 142-151) *)
From Coq Require Import List ZArith Bool.
Import ListNotations.

(** Where the server listens. *)
Inductive channel := Ws (port : Z) | Tcp (port : Z) | Stdio.

(** ftypes.py 196-206 [LSPOptions], without the debounce interval (see Lsp) *)
Record lsp_options := LSPOptions { o_tcp : option Z; o_ws : option Z; o_stdio : bool }.

(** cli.py 248-257: what is on the command line, in order; for each option click takes the last value. *)
Inductive given_option := GStdio (b : bool) | GTcp (port : Z) | GWs (port : Z).

Definition one_option (o : lsp_options) (g : given_option) : lsp_options :=
  match g with
  | GStdio b => LSPOptions (o_tcp o) (o_ws o) b
  | GTcp n => LSPOptions (Some n) (o_ws o) (o_stdio o)
  | GWs n => LSPOptions (o_tcp o) (Some n) (o_stdio o)
  end.

(** cli.py 258-278: the options for the server; the defaults are those of the decorators. *)
Definition lsp_command (gs : list given_option) : lsp_options := fold_left one_option gs (LSPOptions None None true).

(** A call of pygls' start_ws, start_tcp or start_io, which returns when the server on this channel has ended. *)
Inductive serving := Finished | Serve (c : channel) (next : serving).

(** Python's truth of an [Optional[int]] *)
Definition truthy_port (o : option Z) : option Z := match o with Some 0%Z => None | _ => o end.

(** lsp.py 142-151 [LSP.start] *)
Definition start_server (o : lsp_options) : serving :=
  let third := if o_stdio o then Serve Stdio Finished else Finished in
  let second := match truthy_port (o_tcp o) with Some n => Serve (Tcp n) third | None => third end in
  match truthy_port (o_ws o) with Some n => Serve (Ws n) second | None => second end.

(** What can be observed, and how it can go on: a channel is opened; the server on it goes on for ever (or until now), raises, or ends. *)
Inductive serve_event := Opened (c : channel) | Closed (c : channel).
Inductive serve_outcome := StillServing | ServeRaised | AllEnded.

Inductive serves : serving -> list serve_event -> serve_outcome -> Prop :=
| s_finished : serves Finished [] AllEnded
| s_still : forall c k, serves (Serve c k) [Opened c] StillServing
| s_raises : forall c k, serves (Serve c k) [Opened c] ServeRaised
| s_ends : forall c k es o, serves k es o -> serves (Serve c k) (Opened c :: Closed c :: es) o.
