(** The command line, hamilton/cli/__main__.py, commands.py and the context files of logic.py. *)
From Verif Require Import Base Dict.

(** cli/__main__.py 144-284; `ui` is left out *)
Inductive cmd := CBuild | CVersion | CDiff | CValidate | CView.
#[global] Instance cmd_eq_dec : EqDecision cmd.
Proof. solve_decision. Defined.

(** logic.py 7-10 *)
Definition CONFIG := "HAMILTON_CONFIG".
Definition FINAL_VARS := "HAMILTON_FINAL_VARS".
Definition INPUTS := "HAMILTON_INPUTS".
Definition OVERRIDES := "HAMILTON_OVERRIDES".

Section Command.
(** Python's values with {} and [] and dictionaries of values, whether [json.dumps] takes them, modules, drivers.
    Exceptions are their messages. *)
Variables (V M D : Type) (no_entries no_items : V) (entries : dict V -> V) (serialisable : V -> bool).
(** What a context file has: its names, None for null *)
Definition cfile := dict (option V).
(** What commands.py calls of Hamilton: building a driver (lines 18-24), hashes of nodes (98-105), the comparison
    (38-79), [validate_execution] (87-91) with final variables, inputs and overrides, drawing (108-110), which gives
    the message of __main__.py 281-284; names of modules (164) *)
Variables (build_driver : M -> V -> res string D) (version_of : D -> res string V) (diff_of : D -> M -> V -> res string V)
  (validate_execution : D -> V -> V -> V -> res string unit) (view_of : D -> res string V) (stems : M -> V).
(** Reading the context file for the first, second, ... time: a Python file is executed each time, and what it defines
    may differ. Other extensions (logic.py 265-266), files that fail and JSON that is no object give errors. *)
Variable read : nat -> res string cfile.

(** logic.py 288-303 and 306-322: null for what is not there *)
Definition read_context (f : cfile) : dict (option V) :=
  map (fun k => (k, match dget f k with Some v => v | None => None end)) [CONFIG; FINAL_VARS; INPUTS; OVERRIDES].
(** logic.py 272-285 *)
Definition validate_context (c : dict (option V)) : dict V :=
  map (fun kv => (kv.1, match kv.2 with Some v => v | None => if decide (kv.1 = FINAL_VARS) then no_items else no_entries end)) c.
(** 256-269 *)
Definition load_context (n : nat) : res string (dict V) :=
  match read n with Ok f => Ok (validate_context (read_context f)) | Err e => Err e end.
(** Entries of contexts, commands.py 22, 46, 88-90; they are always there (C95_context) *)
Definition entry (c : dict V) (k : string) : V := match dget c k with Some v => v | None => no_entries end.

(** __main__.py 36-40, 44: [state.dr]; how often the context file was read; lines printed, as JSON with the name of the
    command or as they are *)
Inductive line := LJson (c : cmd) (v : V) | LPlain (v : V).
Record cli := Cli { c_dr : option D; c_reads : nat; c_out : list line }.
(** Options, arguments: whether there is a context file *)
Record options := Options { o_verbose : bool; o_json : bool; o_modules : M; o_context : bool }.

(** 135-141: True, or an exception of [json.dumps] *)
Definition respond (o : options) (invoked c : cmd) (v : V) (s : cli) : bool * cli :=
  if bool_decide (invoked = c) || o_verbose o then
    if o_json o then
      if serialisable v then (true, Cli (c_dr s) (c_reads s) (c_out s ++ [LJson c v])) else (false, s)
    else (true, Cli (c_dr s) (c_reads s) (c_out s ++ [LPlain v]))
  else (true, s).
(** commands.py 16, 36, with 22 and 46: {} without a context file; the configuration and how often the file was read then *)
Definition config_of (o : options) (s : cli) : res string V * nat :=
  if o_context o then (match load_context (c_reads s) with Ok c => Ok (entry c CONFIG) | Err e => Err e end, S (c_reads s)) else (Ok no_entries, c_reads s).
(** __main__.py 144-166, with 119-132 around commands.py 8-24: False for leaving with code 1 *)
Definition run_build (o : options) (invoked : cmd) (s : cli) : bool * cli :=
  let '(cfg, n) := config_of o s in
  match cfg with
  | Err _ => (false, Cli (c_dr s) n (c_out s))
  | Ok cfg =>
      match build_driver (o_modules o) cfg with
      | Err _ => (false, Cli (c_dr s) n (c_out s))
      | Ok d => respond o invoked CBuild (stems (o_modules o)) (Cli (Some d) n (c_out s))
      end
  end.
(** The beginning of the other commands, lines 192-193, 228-229, 250-251, 273-274: if there is no driver another command makes one *)
Definition first (before : cli -> bool * cli) (s : cli) (after : D -> cli -> bool * cli) : bool * cli :=
  match c_dr s with
  | Some d => after d s
  | None => let '(ok, s') := before s in if ok then match c_dr s' with Some d => after d s' | None => (false, s') end else (false, s')
  end.
(** 119-132 and 135-141: what a command gives is shown, or it fails *)
Definition answer (o : options) (invoked c : cmd) (r : res string V) (s : cli) : bool * cli :=
  match r with Ok v => respond o invoked c v s | Err _ => (false, s) end.
(** 242-261 *)
Definition run_version (o : options) (invoked : cmd) (s : cli) : bool * cli :=
  first (run_build o invoked) s (fun d s => answer o invoked CVersion (version_of d) s).
(** 169-217: [version] is run first; the context is read again *)
Definition run_diff (o : options) (invoked : cmd) (s : cli) : bool * cli :=
  first (run_version o invoked) s (fun d s =>
    let '(cfg, n) := config_of o s in
    answer o invoked CDiff (match cfg with Ok cfg => diff_of d (o_modules o) cfg | Err e => Err e end) (Cli (c_dr s) n (c_out s))).
(** 220-239 with commands.py 82-95: the context is read again *)
Definition run_validate (o : options) (invoked : cmd) (s : cli) : bool * cli :=
  first (run_build o invoked) s (fun d s =>
    answer o invoked CValidate
      (match load_context (c_reads s) with
       | Err e => Err e
       | Ok c => match validate_execution d (entry c FINAL_VARS) (entry c INPUTS) (entry c OVERRIDES) with Ok _ => Ok (entries c) | Err e => Err e end
       end) (Cli (c_dr s) (S (c_reads s)) (c_out s))).
(** 264-284 *)
Definition run_view (o : options) (invoked : cmd) (s : cli) : bool * cli :=
  first (run_build o invoked) s (fun d s => answer o invoked CView (view_of d) s).

(** One command of the program, and the state it starts with *)
Definition run (o : options) (c : cmd) (s : cli) : bool * cli :=
  match c with CBuild => run_build o c s | CVersion => run_version o c s | CDiff => run_diff o c s | CValidate => run_validate o c s | CView => run_view o c s end.
Definition start : cli := Cli None 0 [].
End Command.
Arguments LJson {V}. Arguments LPlain {V}.
Arguments Cli {V D}. Arguments c_dr {V D}. Arguments c_reads {V D}. Arguments c_out {V D}. Arguments start {V D}.
Arguments Options {M}. Arguments o_verbose {M}. Arguments o_json {M}. Arguments o_modules {M}. Arguments o_context {M}.
