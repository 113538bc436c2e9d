(** What Kedro computes, by its documentation: the sequential runner. *)
From Verif Require Import Base Dict KedroModel.

Section Spec.
Context {V : Type}.
Variable members : V -> option (list V).
Variable field : V -> string -> option V.

(** The dataset a parameter is bound to: by position or by name *)
Definition bound_to (n : knode V) (i : nat) (p : string) : option string :=
  match kn_inputs n with KList l => l !! i | KMap m => dget m p end.
Section Args.
Variable value : string -> res kerr V.
Fixpoint kargs (n : knode V) (i : nat) (ps : list (string * option V)) : res kerr (list V) :=
  match ps with
  | [] => Ok []
  | (p, d) :: ps =>
      match match bound_to n i p, d with Some x, _ => value x | None, Some v => Ok v | None, None => Err KType end with
      | Err e => Err e
      | Ok v => match kargs n (S i) ps with Ok vs => Ok (v :: vs) | Err e => Err e end
      end
  end.
End Args.
(** The dataset of a result: one output is the result, a list of outputs are the members of the result as
    many as there are, otherwise by keys *)
Fixpoint index_of (d : string) (l : list string) : option nat :=
  match l with [] => None | x :: l => if decide (x = d) then Some 0 else S <$> index_of d l end.
Fixpoint key_of (d : string) (m : list (string * string)) : option string :=
  match m with [] => None | (k, x) :: m => if decide (x = d) then Some k else key_of d m end.
Definition dataset (o : kout) (d : string) (r : V) : option V :=
  match o with
  | ONone => None
  | OStr _ => Some r
  | OList l => match members r, index_of d l with Some vs, Some i => if decide (length vs = length l) then vs !! i else None | _, _ => None end
  | ODict m => k ← key_of d m; field r k
  end.
Definition datasets (n : knode V) : list string :=
  match kn_outputs n with ONone => [] | OStr d => [d] | OList l => l | ODict m => map snd m end.
Fixpoint producer (p : list (knode V)) (d : string) : option (knode V) :=
  match p with [] => None | n :: p => if decide (d ∈ datasets n) then Some n else producer p d end.
Fixpoint krun (fuel : nat) (p : list (knode V)) (given : dict V) (d : string) : res kerr V :=
  match fuel with
  | 0 => Err KFuel
  | S fuel =>
      match producer p d with
      | None => match dget given d with Some v => Ok v | None => Err KMissing end
      | Some n =>
          match kargs (krun fuel p given) n 0 (kf_params (kn_fun n)) with
          | Err e => Err e
          | Ok vs =>
              match kf_run (kn_fun n) vs with
              | Err e => Err e
              | Ok r => match dataset (kn_outputs n) d r with Some v => Ok v | None => Err KType end
              end
          end
      end
  end.

(** Names without the prefix that marks parameters *)
Definition unprefixed (s t : string) : Prop := s = ("params:" ++ t)%string \/ (s = t /\ forall u, s <> ("params:" ++ u)%string).
(** Pipelines that can be converted: *)
Record plain_node (n : knode V) : Prop := PlainNode {
  (* every parameter has an input, and no two the same one *)
  pl_params : NoDup (map fst (kf_params (kn_fun n)));
  pl_bound : match kn_inputs n with KList l => length l = length (kf_params (kn_fun n)) | KMap m => forall p, p ∈ map fst (kf_params (kn_fun n)) -> is_Some (dget m p) end;
  pl_once : forall i j p q x y t, map fst (kf_params (kn_fun n)) !! i = Some p -> map fst (kf_params (kn_fun n)) !! j = Some q -> bound_to n i p = Some x -> bound_to n j q = Some y -> unprefixed x t -> unprefixed y t -> i = j;
  (* several outputs are those of a function that returns a tuple, or a dictionary with the names of the datasets *)
  pl_outputs : match kn_outputs n with
    | ONone | OStr _ => kf_ann (kn_fun n) <> ANone
    | OList l => 1 < length l /\ NoDup l /\ kf_ann (kn_fun n) = ATuple
    | ODict m => 1 < length m /\ kf_ann (kn_fun n) = ADict /\ forall k x, (k, x) ∈ m -> k = x
    end;
  (* where there are not one but several outputs, the function's name is none of its parameters and inputs *)
  pl_name : 1 < length (datasets n) -> kf_name (kn_fun n) ∉ map fst (kf_params (kn_fun n)) /\
    forall i p x, map fst (kf_params (kn_fun n)) !! i = Some p -> bound_to n i p = Some x -> ~ unprefixed x (kf_name (kn_fun n)) }.
(** The names that nodes take: of datasets, and of functions that have not one dataset *)
Definition names (n : knode V) : list string :=
  match datasets n with [d] => [d] | ds => kf_name (kn_fun n) :: ds end.
Record plain (p : list (knode V)) : Prop := Plain {
  pn_nodes : Forall plain_node p;
  pn_names : NoDup (p ≫= names) }.
(** The inputs of the driver are those of the pipeline, without prefixes; neither datasets that are computed
    have prefixes, nor have inputs without prefix the name of a node *)
Definition same_inputs (p : list (knode V)) (gk gh : dict V) : Prop :=
  (forall d n, producer p d = Some n -> forall u, d <> ("params:" ++ u)%string) /\
  forall d v t, dget gk d = Some v -> producer p d = None -> unprefixed d t -> dget gh t = Some v /\ t ∉ p ≫= names.
End Spec.
