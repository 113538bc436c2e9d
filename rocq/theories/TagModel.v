(** Tag queries (hamilton/node.py 401-430, hamilton/driver.py 837-887). *)
From Verif Require Import Base Dict.

(** Tag values: a string or a list of strings (hamilton/function_modifiers/metadata.py). *)
Inductive tagval := TStr (s : string) | TList (l : list string).
(** Queried values; [QOther]: anything else, such as a number or a dict. *)
Inductive qval := QNone | QStr (s : string) | QList (l : list string) | QOther.
Global Instance qval_eq_dec : EqDecision qval.
Proof. solve_decision. Defined.

Definition tag_list (t : tagval) : list string := match t with TStr s => [s] | TList l => l end.
(** node.py 422-423: anything that is no list is wrapped; something else than a string is
    equal to no tag value. *)
Definition query_list (q : qval) : list (option string) :=
  match q with QNone => [] | QStr s => [Some s] | QList l => map Some l | QOther => [None] end.

(** node.py 401-430 [matches_query] *)
Fixpoint matches_query (tags : dict tagval) (query : dict qval) : bool :=
  match query with
  | [] => true
  | (tag, value) :: query' =>
      match dget tags tag with
      | None => false
      | Some t =>
          match value with
          | QNone => matches_query tags query'
          | _ => if existsb (fun q => existsb (fun s => bool_decide (q = Some s)) (tag_list t)) (query_list value)
                 then matches_query tags query' else false
          end
      end
  end.

(** driver.py 870-878 *)
Definition valid_value (q : qval) : bool :=
  match q with QNone => true | QStr _ => true | QList l => negb (bool_decide (l = [])) | QOther => false end.
(** driver.py 837-887 [list_available_variables]: names of the variables, in the order of the
    nodes of the graph; None: ValueError. *)
Definition list_available_variables (nodes : list (name * dict tagval)) (tag_filter : option (dict qval)) : option (list name) :=
  match tag_filter with
  | None | Some [] => Some (map fst nodes)
  | Some query =>
      if forallb (fun kq => valid_value kq.2) query
      then Some (map fst (List.filter (fun n => matches_query n.2 query) nodes))
      else None
  end.
