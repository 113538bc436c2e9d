(** Model of the resolution of caching behaviours: hamilton/caching/adapter.py. *)
From Coq Require Import Ascii.
From Verif Require Import Base Dict CacheModel.

Inductive berr := BValueError | BKeyError | BTypeError.

(** A node as far as caching behaviours are concerned. *)
Record bnode := BNode {
  bn_name : name;
  bn_expand : bool;              (* node_role is EXPAND *)
  bn_tag : option string;        (* tag set by @cache(behavior=...) *)
  bn_loader : option name;       (* tag "hamilton.data_loader" is True: the tag "hamilton.data_loader.node" *)
  bn_saver : bool;               (* tag "hamilton.data_saver" is True *)
}.

(** adapter.py 203-206: None, True or a collection of names. *)
Inductive bset := BNone | BTrue | BNames (l : list name).
(** adapter.py 198-212: arguments of the adapter. *)
Record bconfig := BConfig {
  bc_default : bset;
  bc_recompute : bset;
  bc_ignore : bset;
  bc_disable : bset;
  bc_default_behavior : option string;
  bc_default_loader : option string;
  bc_default_saver : option string;
}.

(** Python's str.upper on ASCII letters; other characters are left alone. *)
Definition upper_ascii (c : ascii) : ascii :=
  let n := nat_of_ascii c in if (97 <=? n) && (n <=? 122) then ascii_of_nat (n - 32) else c.
Fixpoint upper (s : string) : string :=
  match s with EmptyString => EmptyString | String c s' => String (upper_ascii c) (upper s') end.

(** adapter.py 72-86 *)
Definition from_string (s : string) : berr + behavior :=
  let u := upper s in
  if String.eqb u "DEFAULT" then inr DEFAULT
  else if String.eqb u "RECOMPUTE" then inr RECOMPUTE
  else if String.eqb u "DISABLE" then inr DISABLE
  else if String.eqb u "IGNORE" then inr IGNORE
  else inl BKeyError.

(** adapter.py 236-239 *)
Definition is_true (b : bset) : bool := match b with BTrue => true | _ => false end.
Definition init_check (c : bconfig) : bool :=
  negb (1 <? length (filter (fun b => is_true b) [bc_default c; bc_recompute c; bc_disable c; bc_ignore c])).

(** adapter.py 863-879: the loop over the four collections. [name in True] is a TypeError. *)
Fixpoint from_driver (x : name) (sets : list (behavior * bset)) (acc : option behavior) : berr + option behavior :=
  match sets with
  | [] => inr acc
  | (b, s) :: rest =>
      match s with
      | BNone => from_driver x rest acc
      | BTrue => inl BTypeError
      | BNames l =>
          if decide (x ∈ l) then
            match acc with Some _ => inl BValueError | None => from_driver x rest (Some b) end
          else from_driver x rest acc
      end
  end.

(** adapter.py 839-890 *)
Definition resolve_node (n : bnode) (default disable recompute ignore : bset)
    (default_behavior default_loader default_saver : string) : berr + behavior :=
  if bn_expand n then inr RECOMPUTE
  else
    match match bn_tag n with None => inr None | Some t => match from_string t with inl e => inl e | inr b => inr (Some b) end end with
    | inl e => inl e
    | inr from_tag =>
        match from_driver (bn_name n) [(DEFAULT, default); (DISABLE, disable); (RECOMPUTE, recompute); (IGNORE, ignore)] None with
        | inl e => inl e
        | inr (Some b) => inr b
        | inr None =>
            match from_tag with
            | Some b => inr b
            | None =>
                match bn_loader n with
                | Some _ => from_string default_loader
                | None => if bn_saver n then from_string default_saver else from_string default_behavior
                end
            end
        end
    end.

(** adapter.py 935-947: the first pass. *)
Fixpoint first_pass (res : bnode -> berr + behavior) (ns : list bnode) (acc : dict behavior) : berr + dict behavior :=
  match ns with
  | [] => inr acc
  | n :: ns' => match res n with inl e => inl e | inr b => first_pass res ns' (dset acc (bn_name n) b) end
  end.

(** adapter.py 958-990: the second pass; also collects [_data_loaders] and [_data_savers]. *)
Fixpoint second_pass (fake : bnode -> name -> berr + behavior) (ns : list bnode)
    (acc : dict behavior * list name * list name) : berr + (dict behavior * list name * list name) :=
  match ns with
  | [] => inr acc
  | n :: ns' =>
      let '(beh, ldrs, svrs) := acc in
      let svrs' := if bn_saver n then svrs ++ [bn_name n] else svrs in
      match bn_loader n with
      | None => second_pass fake ns' (beh, ldrs, svrs')
      | Some main =>
          if decide (main = bn_name n) then second_pass fake ns' (beh, ldrs, svrs)      (* continue *)
          else
            match match dget beh main with Some b => inr b | None => fake n main end with
            | inl e => inl e
            | inr b => second_pass fake ns' (dset beh (bn_name n) b, ldrs ++ [main], svrs')
            end
      end
  end.

(** adapter.py 892-992 *)
Definition resolve_behaviors (c : bconfig) (ns : list bnode) : berr + (dict behavior * list name * list name) :=
  let all := BNames (map bn_name ns) in
  let t b := is_true b in
  let dflt := if t (bc_default c) then all else bc_default c in
  let dsbl := if negb (t (bc_default c)) && t (bc_disable c) then all else bc_disable c in
  let rcmp := if negb (t (bc_default c)) && negb (t (bc_disable c)) && t (bc_recompute c) then all else bc_recompute c in
  let ignr := if negb (t (bc_default c)) && negb (t (bc_disable c)) && negb (t (bc_recompute c)) && t (bc_ignore c)
              then all else bc_ignore c in
  let db := default "default"%string (bc_default_behavior c) in
  let dl := default db (bc_default_loader c) in
  let ds := default db (bc_default_saver c) in
  match first_pass (fun n => resolve_node n dflt dsbl rcmp ignr db dl ds) ns [] with
  | inl e => inl e
  | inr beh =>
      second_pass (fun n main => resolve_node (BNode main false (bn_tag n) (bn_loader n) (bn_saver n))
                                   dflt dsbl rcmp ignr dl "default" "default") ns (beh, [], [])
  end.

(** The adapter as configured: construction, then resolution. *)
Definition behaviors_of (c : bconfig) (ns : list bnode) : berr + (dict behavior * list name * list name) :=
  if init_check c then resolve_behaviors c ns else inl BValueError.
