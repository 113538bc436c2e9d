(** What commands answer, independently of how they call each other. *)
From Verif Require Import Base Dict CommandModel.

(** Commands that come first *)
Definition chain (c : cmd) : list cmd :=
  match c with CBuild => [CBuild] | CVersion => [CBuild; CVersion] | CDiff => [CBuild; CVersion; CDiff] | CValidate => [CBuild; CValidate] | CView => [CBuild; CView] end.
Section Spec.
Context {V M D : Type} (no_entries no_items : V) (entries : dict V -> V) (serialisable : V -> bool).
Context (build_driver : M -> V -> res string D) (version_of : D -> res string V) (diff_of : D -> M -> V -> res string V)
  (validate_execution : D -> V -> V -> V -> res string unit) (view_of : D -> res string V) (stems : M -> V).
(** A file's value of a name, or another where it has none or null *)
Definition has (f : dict (option V)) (k : string) (other v : V) : Prop := dget f k = Some (Some v) \/ (dget f k = None \/ dget f k = Some None) /\ v = other.
(** The configuration, with or without a context file *)
Definition config (f : option (dict (option V))) (v : V) : Prop := match f with Some f => has f CONFIG no_entries v | None => v = no_entries end.
(** What a command answers about modules, with the context *)
Inductive answers (m : M) (f : option (dict (option V))) : cmd -> V -> Prop :=
| a_build cfg d : config f cfg -> build_driver m cfg = Ok d -> answers m f CBuild (stems m)
| a_version cfg d v : config f cfg -> build_driver m cfg = Ok d -> version_of d = Ok v -> answers m f CVersion v
| a_diff cfg d v : config f cfg -> build_driver m cfg = Ok d -> diff_of d m cfg = Ok v -> answers m f CDiff v
| a_view cfg d v : config f cfg -> build_driver m cfg = Ok d -> view_of d = Ok v -> answers m f CView v
| a_validate cfg d file fv i o : f = Some file -> config f cfg -> build_driver m cfg = Ok d ->
    has file FINAL_VARS no_items fv -> has file INPUTS no_entries i -> has file OVERRIDES no_entries o -> validate_execution d fv i o = Ok tt ->
    answers m f CValidate (entries [(CONFIG, cfg); (FINAL_VARS, fv); (INPUTS, i); (OVERRIDES, o)]).
(** Commands that show what they answer; answers that can be shown *)
Definition shows (o : options M) (invoked c : cmd) : Prop := invoked = c \/ o_verbose o = true.
Definition shown_line (o : options M) (c : cmd) (v : V) : line V := if o_json o then LJson c v else LPlain v.
Definition succeeds (o : options M) (f : option (dict (option V))) (invoked c : cmd) (v : V) : Prop :=
  answers (o_modules o) f c v /\ (shows o invoked c -> o_json o = true -> serialisable v = true).
(** Lines of answers: those shown, in order *)
Inductive lines (o : options M) (f : option (dict (option V))) (invoked : cmd) : list cmd -> list (line V) -> Prop :=
| l_nil : lines o f invoked [] []
| l_shown c cs v ls : lines o f invoked cs ls -> succeeds o f invoked c v -> shows o invoked c -> lines o f invoked (cs ++ [c]) (ls ++ [shown_line o c v])
| l_silent c cs v ls : lines o f invoked cs ls -> succeeds o f invoked c v -> ~ shows o invoked c -> lines o f invoked (cs ++ [c]) ls.
End Spec.
