(** What telemetry may do, said without its code. *)
From Coq Require Import Ascii.
From stdpp Require Import pretty.
From Verif Require Import Base Dict TelemModel.

(** [s] is [w] but for capital letters *)
Inductive spells : string -> string -> Prop :=
| sp_nil : spells "" ""
| sp_same a s w : spells s w -> (nat_of_ascii a < 65 \/ 90 < nat_of_ascii a) -> spells (String a s) (String a w)
| sp_capital a b s w : spells s w -> 65 <= nat_of_ascii a <= 90 -> nat_of_ascii b = nat_of_ascii a + 32 -> spells (String a s) (String b w).
(** A value that says yes or no *)
Definition says (s : string) (b : bool) : Prop := exists w, spells s w /\ w ∈ (if b then ["1"; "yes"; "true"; "on"] else ["0"; "no"; "false"; "off"]).
Definition says_nothing (v : option string) : Prop := forall s b, v = Some s -> ~ says s b.

(** Entries of a traceback that are not Hamilton's; [root]: the directory of its package *)
Definition users (root : list string) (f : frame) : Prop := ~ root `prefix_of` f_path f.
(** [c] is the file or one of the three directories above it. *)
Definition nearby (c : string) (f : frame) : Prop := exists before after, f_path f = before ++ c :: after /\ length after < 4.

(** Two worlds that differ in what is the user's alone *)
Definition obj_alike (package : string) (a b : obj) : Prop := a = b \/ (String.prefix package (o_module a) = false /\ String.prefix package (o_module b) = false).
Definition frame_alike (root : list string) (f f' : frame) : Prop := f = f' \/ (users root f /\ users root f').
Definition adapter_alike (a b : adapter) : Prop := obj_alike "hamilton." (a_obj a) (a_obj b) /\ a_builds a = a_builds b.
Definition error_alike (root : list string) : option (list frame) -> option (list frame) -> Prop := option_Forall2 (Forall2 (frame_alike root)).
Definition same_size {A B} (a : option (list A)) (b : option (list B)) : Prop := length <$> a = length <$> b.
Record built_alike {V W} (root : list string) (b : built V) (b' : built W) : Prop := BuiltAlike {
  ba_nodes : same_size (b_nodes b) (b_nodes b');
  ba_modules : length (b_modules b) = length (b_modules b');
  ba_config : length (b_config b) = length (b_config b');
  ba_decorators : Forall2 (obj_alike "hamilton.function_modifiers") (b_decorators b) (b_decorators b');
  ba_adapters : Forall2 adapter_alike (b_adapters b) (b_adapters b');
  ba_run : b_run b = b_run b';
  ba_error : error_alike root (b_error b) (b_error b');
}.
(** The executor: the same, or neither of Hamilton's *)
Definition executor_alike {V W} (b : built V) (b' : built W) : Prop := option_Forall2 (obj_alike "hamilton.") (b_executor b) (b_executor b').
Record ran_alike {V W} (root : list string) (r : ran V) (r' : ran W) : Prop := RanAlike {
  ra_success : r_success r = r_success r';
  ra_finals : length (r_finals r) = length (r_finals r');
  ra_inputs : same_size (r_inputs r) (r_inputs r');
  ra_overrides : same_size (r_overrides r) (r_overrides r');
  ra_run : r_run r = r_run r';
  ra_error : error_alike root (r_error r) (r_error r');
}.
(** No code of the user is near a file or directory called hamilton. *)
Definition apart (root : list string) (e : option (list frame)) : Prop := forall tb f, e = Some tb -> f ∈ tb -> users root f -> ~ nearby "hamilton" f.

(** How many decorators are counted under a name *)
Definition uses (ds : list obj) (n : string) : nat :=
  length (filter (fun d => (String.prefix "hamilton.function_modifiers" (o_module d) = true /\ o_class d = n)
                        \/ (String.prefix "hamilton.function_modifiers" (o_module d) = false /\ n = "custom_decorator")) ds).

(** What a program would have sent if nobody minded *)
Definition op_event (o : op) : list (bool * event) :=
  match o with OGated _ (Some e) => [(true, e)] | OGated _ None => [] | OFree e => [(false, e)] | ODisable => [] end.
Definition all_events (progs : list (list op)) : list (bool * event) := concat progs ≫= op_event.
Definition asked (st : tstate) : list (bool * event) := filter (fun x => x.1 = true) (t_sent st).

(** What is said of an adapter: where it is if it is Hamilton's *)
Definition adapter_named (a : adapter) (s : string) : Prop :=
  (exists rest, o_module (a_obj a) = ("hamilton." ++ rest)%string /\ s = (o_module (a_obj a) ++ "." ++ o_class (a_obj a))%string) \/
  ((forall rest, o_module (a_obj a) <> ("hamilton." ++ rest)%string) /\ s = "custom_adapter").
(** ... and of the first of the adapters that builds results *)
Definition builder_names : list (bkind * string) :=
  [(BStrict, "hamilton.base.StrictIndexTypePandasDataFrameResult"); (BPandas, "hamilton.base.PandasDataFrameResult"); (BDict, "hamilton.base.DictResult");
   (BNumpy, "hamilton.base.NumpyMatrixResult"); (BOther, "custom_builder")].
Definition builder_named (l : list adapter) (s : string) : Prop :=
  (Forall (fun a => a_builds a = None) l /\ s = "no_result_builder") \/
  exists before a k after, l = before ++ a :: after /\ Forall (fun a => a_builds a = None) before /\ a_builds a = Some k /\ (k, s) ∈ builder_names.
