(** [@does]: hamilton/function_modifiers/macros.py 39-228. *)
From Verif Require Import Base Dict NodeModel DecorModel.

(** [V]: values; [E]: what functions raise; [ellipsis]: the value [...]. *)
Section Model.
Context {V E : Type}.
Variable ellipsis : V.
Notation param := (param V).

(** What the argument of a function is taken from, 83: [Union[str, List[str]]]. *)
Inductive src := One (o : name) | Many (os : list name).
Global Instance src_eq_dec : EqDecision src.
Proof. solve_decision. Defined.
(** KeyError; TypeError; InvalidDecoratorException; what the function raises. *)
Inductive xq := QKey | QType | QInvalid | QUser (e : E).

(** 94-112 [map_kwargs]: one turn of the loop. *)
Definition map_step {A} (kwargs : dict A) (mapping : dict src) (tm : name * src) (output : dict A) : res xq (dict A) :=
  match tm.2 with
  | Many _ => Err QType (* a list is not hashable: [original_arg in kwargs] *)
  | One o =>
    match dget kwargs o with
    | None => Err QKey
    | Some v =>
      if decide (One tm.1 ∈ map snd mapping) then Ok (dset output tm.1 v)
      else match dget output o with
           | None => Err QKey (* [del] *)
           | Some _ => Ok (dset (ddel output o) tm.1 v)
           end
    end
  end.
Definition map_kwargs {A} (kwargs : dict A) (mapping : dict src) : res xq (dict A) := foldr_ (map_step kwargs mapping) mapping kwargs.

(** [dict.update] *)
Definition update {A} (d e : dict A) : dict A := foldl (fun d kv => dset d kv.1 kv.2) d e.
Definition defaults (ps : list param) : dict V := omap (fun p => match p_default p with Some v => Some (p_name p, v) | None => None end) ps.

(** What a call makes of its keyword arguments: the named ones and the others; [inspect.Signature.bind( **kw)] succeeds for the same
    (simplified: up to python 3.12 [bind], not the call, also refuses the name of a positional-only parameter beside a [**kwargs]). *)
Definition named (p : param) : bool := bool_decide (p_kind p ∈ [POSITIONAL_OR_KEYWORD; KEYWORD_ONLY]).
Definition bind_one (kw : dict V) (p : param) : option (list (name * V)) :=
  match p_kind p with
  | POSITIONAL_OR_KEYWORD | KEYWORD_ONLY =>
    match dget kw (p_name p) with Some v => Some [(p_name p, v)] | None => match p_default p with Some v => Some [(p_name p, v)] | None => None end end
  | POSITIONAL_ONLY => match p_default p with Some v => Some [(p_name p, v)] | None => None end
  | _ => Some []
  end.
Fixpoint bind_all (kw : dict V) (ps : list param) : option (dict V) :=
  match ps with
  | [] => Some []
  | p :: ps => match bind_one kw p, bind_all kw ps with Some l, Some l' => Some (l ++ l') | _, _ => None end
  end.
Definition others (ps : list param) (kw : dict V) : dict V := filter (fun kv => kv.1 ∉ map p_name (filter (fun p => named p = true) ps)) kw.
Definition takes_others (ps : list param) : bool := existsb (fun p => bool_decide (p_kind p = VAR_KEYWORD)) ps.
Definition bind_sig (ps : list param) (kw : dict V) : res xq (dict V * dict V) :=
  if bool_decide (others ps kw <> []) && negb (takes_others ps) then Err QType
  else match bind_all kw ps with Some l => Ok (l, others ps kw) | None => Err QType end.

(** The replacing function: its signature and what it does with named and other arguments. *)
Record function := Function { fn_sig : list param; fn_body : dict V -> dict V -> res E V }.
Definition apply (f : function) (kw : dict V) : res xq V :=
  bindr (bind_sig (fn_sig f) kw) (fun ne => match fn_body f ne.1 ne.2 with Ok v => Ok v | Err e => Err (QUser e) end).

(** 114-146 [test_function_signatures_compatible] *)
Definition compatible (ps ps' : list param) (mapping : dict src) : res xq bool :=
  let dummy := update (map (fun kv => (kv.1, ellipsis)) (defaults ps)) (map (fun p => (p_name p, ellipsis)) ps) in
  bindr (map_kwargs dummy mapping) (fun kw => Ok (match bind_sig ps' kw with Ok _ => true | Err _ => false end)).
(** 148-203 [validate]; [empty]: the body of the function is "pass" (by its bytecode, 39-50). *)
Definition validate (empty : bool) (ps : list param) (f : function) (mapping : dict src) : res xq unit :=
  if negb empty then Err QInvalid
  else if negb (forallb named ps) then Err QInvalid
  else bindr (compatible ps (fn_sig f) mapping) (fun ok => if ok then Ok tt else Err QInvalid).
(** 213-221: what the node computes. *)
Definition wrapper (ps : list param) (f : function) (mapping : dict src) (kwargs : dict V) : res xq V :=
  bindr (map_kwargs (update (defaults ps) kwargs) mapping) (apply f).
End Model.
