(** * Api: linting and fixing files (fixit/api.py, fixit/format.py) *)
From Coq Require Import String List NArith Bool Arith.
From Verif Require Import Base PyStr Ftypes Paths Config Suppress Cst Engine.
Import ListNotations.
Set Implicit Arguments.

(** ftypes.py 277-285 [Result]. Simplification: the traceback text is left out. *)
Record result := Result { x_path : path; x_violation : option viol; x_error : option exn }.

(** ** Generators with effects

    A generator of results that may look at the file system, write a file, read standard input,
    write standard output and call the metrics hook. The caller answers a result with None
    (next), True or False (send). Simplifications: exceptions are subclasses of Exception (a
    KeyboardInterrupt or a killed process is an execution that stops), and the caller does not
    throw into the generator. *)
Inductive prog (R : Type) : Type :=
| Ret (r : R)
| Raise (e : exn)
| Give (x : result) (k : option bool -> prog R)
| Look (k : fs -> prog R)
| Write (p : path) (c : str) (k : res unit -> prog R)
| Stdin (k : res str -> prog R)
| Stdout (c : str) (k : res unit -> prog R)
| Call (m : metrics) (k : res unit -> prog R).
Arguments Ret {R} r.
Arguments Raise {R} e.
Arguments Give {R} x k.
Arguments Look {R} k.
Arguments Write {R} p c k.
Arguments Stdin {R} k.
Arguments Stdout {R} c k.
Arguments Call {R} m k.

(** [x = yield from p; ...] *)
Fixpoint pbind {A B} (p : prog A) (f : A -> prog B) : prog B :=
  match p with
  | Ret r => f r
  | Raise e => Raise e
  | Give x k => Give x (fun a => pbind (k a) f)
  | Look k => Look (fun F => pbind (k F) f)
  | Write q c k => Write q c (fun o => pbind (k o) f)
  | Stdin k => Stdin (fun o => pbind (k o) f)
  | Stdout c k => Stdout c (fun o => pbind (k o) f)
  | Call m k => Call m (fun o => pbind (k o) f)
  end.

(** [try: p except Exception as e: h(e)] *)
Fixpoint catch {A} (p : prog A) (h : exn -> prog A) : prog A :=
  match p with
  | Ret r => Ret r
  | Raise e => h e
  | Give x k => Give x (fun a => catch (k a) h)
  | Look k => Look (fun F => catch (k F) h)
  | Write q c k => Write q c (fun o => catch (k o) h)
  | Stdin k => Stdin (fun o => catch (k o) h)
  | Stdout c k => Stdout c (fun o => catch (k o) h)
  | Call m k => Call m (fun o => catch (k o) h)
  end.

Definition lift {A B} (r : res A) (f : A -> prog B) : prog B :=
  match r with Ok a => f a | Err e => Raise e end.

(** ** What fixit asks other code for

    The results may depend on the file system (configuration files, local rules, other modules).
    Simplification: not on other state of the interpreter; for collect_rules see Collect.v. *)
Record tool := Tool {
  t_env : env;                                            (* for generate_config, see Config.v *)
  t_class : Type;                                         (* rule instances before the visit *)
  t_collect : fs -> config -> res (list t_class);         (* collect_rules *)
  t_parse : str -> res module;                            (* libcst.parse_module *)
  t_visit : fs -> config -> module -> list t_class -> res (list rule * metrics);
                                                          (* metadata and visit_batched *)
  t_udiff : path -> str -> str -> str;                    (* moreorless.unified_diff *)
  t_bytes : module -> res str;                            (* Module.bytes *)
  t_style : str -> option (fs -> str -> path -> res str); (* FORMAT_STYLES *)
  t_walk : fs -> path -> res (list path) }.               (* trailrunner.walk *)

(** format.py 31-35, 72-80 [format_module] *)
Definition format_module (T : tool) (F : fs) (m : module) (p : path) (cfg : config) : res str :=
  match c_formatter cfg with
  | None => t_bytes T m
  | Some s => match t_style T s with
              | None => Err KeyError
              | Some fmt => let! b := t_bytes T m in fmt F b p
              end
  end.

(** ** api.py 97-150 [fixit_bytes] *)

Definition truthy_answer (a : option bool) : bool := match a with Some true => true | _ => false end.

Definition clean_result (p : path) : result := Result p None None.
Definition violation_result (p : path) (v : viol) : result := Result p (Some v) None.
Definition error_result (p : path) (e : exn) : result := Result p None (Some e).

(** api.py 132-136: the loop, [evs] and [r] being what collect_violations will do *)
Fixpoint lint_loop (p : path) (autofix : bool) (evs : list event) (r : res nat)
    (clean : bool) (pending : list viol) (k : bool -> list viol -> prog (option str)) : prog (option str) :=
  match evs with
  | [] => lift r (fun _ => k clean pending)
  | Yield v :: evs' =>
      Give (violation_result p v) (fun fix_ =>
        lint_loop p autofix evs' r false
          (if truthy_answer fix_ || autofix then pending ++ [v] else pending) k)
  | Hook m :: evs' => Call m (fun o => lift o (fun _ => lint_loop p autofix evs' r clean pending k))
  end.

(** api.py 141-150: an object that is not a module has no bytes *)
Definition finish_fixes (T : tool) (p : path) (cfg : config) (md : module) (pending : list viol) : prog (option str) :=
  match pending with
  | [] => Ret None
  | _ => lift (apply_replacements md pending) (fun updated =>
           match updated with
           | None => Raise AttributeError
           | Some m => Look (fun F => lift (format_module T F m p cfg) (fun c => Ret (Some c)))
           end)
  end.

Definition fixit_bytes (T : tool) (p : path) (content : str) (cfg : config) (autofix hook : bool) : prog (option str) :=
  catch
    (Look (fun F =>
       lift (t_collect T F cfg) (fun rules =>
         match rules with
         | [] => Give (clean_result p) (fun _ => Ret None)
         | _ =>
             lift (t_parse T content) (fun md =>
               let (evs, r) := collect_violations (t_udiff T p) md (t_visit T F cfg md rules) hook in
               lint_loop p autofix evs r true [] (fun clean pending =>
                 if clean : bool then Give (clean_result p) (fun _ => finish_fixes T p cfg md pending)
                 else finish_fixes T p cfg md pending))
         end)))
    (fun e => Give (error_result p e) (fun _ => Ret None)).

(** ** api.py 186-219 [fixit_file], for a resolved path *)
Definition fixit_file (T : tool) (p : path) (autofix : bool) (opts : option options) (hook : bool) : prog unit :=
  catch
    (Look (fun F =>
       match f_file F p with
       | None => Raise OSError
       | Some content =>
           Look (fun F =>
             lift (generate_config (t_env T) F p None opts) (fun cfg =>
               pbind (fixit_bytes T p content cfg autofix hook) (fun updated =>
                 match updated with
                 | Some ((_ :: _) as c) =>
                     if negb (str_eqb c content) then Write p c (fun o => lift o (fun _ => Ret tt)) else Ret tt
                 | _ => Ret tt
                 end)))
       end))
    (fun e => Give (error_result p e) (fun _ => Ret tt)).

(** ** api.py 153-183 [fixit_stdin], for a resolved path *)
Definition fixit_stdin (T : tool) (p : path) (autofix : bool) (opts : option options) (hook : bool) : prog unit :=
  catch
    (Stdin (fun i => lift i (fun content =>
       Look (fun F =>
         lift (generate_config (t_env T) F p None opts) (fun cfg =>
           pbind (fixit_bytes T p content cfg autofix hook) (fun updated =>
             if autofix then
               Stdout (match updated with Some ((_ :: _) as c) => c | _ => content end)
                 (fun o => lift o (fun _ => Ret tt))
             else Ret tt))))))
    (fun e => Give (error_result p e) (fun _ => Ret tt)).

(** ** api.py 238-310 [fixit_paths] *)

(** What is done after looking at the arguments (api.py 276-310). [Parallel]: trailrunner.run_iter,
    see Pool.v. *)
Inductive plan := Input (p : path) | Serial (ps : list path) | Parallel (ps : list path).

Record args := Args { a_files : list path; a_stdin : bool; a_name : path }.

(** api.py 279-291: the loop; an argument is either "-" or a path *)
Inductive arg := Dash | PathArg (p : path).

Definition take_arg (walk : path -> res (list path)) (s : args) (ia : nat * arg) : res args :=
  match snd ia with
  | Dash => Ok (if Nat.eqb (fst ia) 0 then Args (a_files s) true (a_name s) else s)
  | PathArg p =>
      if a_stdin s then
        if Nat.eqb (fst ia) 1 then Ok (Args (a_files s) true p) else Err ValueError
      else let! fs := walk p in Ok (Args (a_files s ++ fs) false (a_name s))
  end.

Fixpoint enumerate {A} (i : nat) (l : list A) : list (nat * A) :=
  match l with [] => [] | x :: l' => (i, x) :: enumerate (S i) l' end.

(** [default_name]: Path("stdin"), below the current directory *)
Definition make_plan (walk : path -> res (list path)) (default_name : path) (parallel : bool)
    (paths : list arg) : res (option plan) :=
  match paths with
  | [] => Ok None
  | _ =>
      let! s := fold_res (take_arg walk) (enumerate 0 paths) (Args [] false default_name) in
      Ok (Some (if a_stdin s then Input (a_name s)
                else if Nat.eqb (List.length (a_files s)) 1 || negb parallel then Serial (a_files s)
                else Parallel (a_files s)))
  end.

Fixpoint serial (T : tool) (ps : list path) (autofix : bool) (opts : option options) (hook : bool) : prog unit :=
  match ps with
  | [] => Ret tt
  | p :: ps' => pbind (fixit_file T p autofix opts hook) (fun _ => serial T ps' autofix opts hook)
  end.

(** [fixit_paths] with [parallel=False], as [fixit fix] calls it *)
Definition fixit_paths_serial (T : tool) (default_name : path) (paths : list arg)
    (autofix : bool) (opts : option options) (hook : bool) : prog unit :=
  Look (fun F => lift (make_plan (t_walk T F) default_name false paths) (fun pl =>
    match pl with
    | None => Ret tt
    | Some (Input p) => fixit_stdin T p autofix opts hook
    | Some (Serial ps) | Some (Parallel ps) => serial T ps autofix opts hook
    end)).
