(** * Spec_Pams: what parameter handling is supposed to do, stated on lookups only.

    These definitions do not use any function of the model. *)
From Coq Require Import QArith.
From Verif Require Import PyBase.

(** Value of key [k] after completing [supplied] with numeric defaults [required],
    [optional] keys being passed through. *)
Definition spec_completed (required supplied optional : dict pyval) (k : string) : option pyval :=
  match dget required k, dget supplied k with
  | Some d, Some v => Some (if is_num v then v else d)
  | Some d, None => Some d
  | None, Some v => if dmem optional k then Some v else None
  | None, None => None
  end.

(** Value of key [k] after a numeric-only update of existing, updatable keys. *)
Definition spec_updated (old new : dict pyval) (updatable : list string) (k : string) : option pyval :=
  match dget old k, dget new k with
  | Some v, Some w => Some (if smem k updatable && is_num w then w else v)
  | o, _ => o
  end.

(** Last numeric value given for [k] in a history of partial sets, else [v0]. *)
Fixpoint spec_last_num (k : string) (v0 : pyval) (hist : list (option (dict pyval))) : pyval :=
  match hist with
  | [] => v0
  | p :: r =>
      let v1 := match p with
                | Some d => match dget d k with
                            | Some v => if is_num v then v else v0
                            | None => v0 end
                | None => v0 end in
      spec_last_num k v1 r
  end.

(** Last value (of any type) given for [k], else [v0]. *)
Fixpoint spec_last_any (k : string) (v0 : option pyval) (hist : list (option (dict pyval))) : option pyval :=
  match hist with
  | [] => v0
  | p :: r =>
      let v1 := match p with
                | Some d => match dget d k with Some v => Some v | None => v0 end
                | None => v0 end in
      spec_last_any k v1 r
  end.

(** A python dictionary never has duplicate keys. *)
Definition opt_wf (p : option (dict pyval)) : Prop := match p with Some d => wf d | None => True end.

(** What was given for key [k] in an optional parameter set. *)
Definition given (p : option (dict pyval)) (k : string) : option pyval :=
  match p with Some d => dget d k | None => None end.

(** Given numeric value or default. *)
Definition num_or (p : option (dict pyval)) (k : string) (dflt : pyval) : pyval :=
  match given p k with Some v => if is_num v then v else dflt | None => dflt end.

(** ** Flat decay-function parameters *)
From Coq Require Import Decimal DecimalString.

(** [f"{prefix}{i}"] *)
Definition flat_name (prefix : string) (i : nat) : string :=
  (prefix ++ NilEmpty.string_of_uint (Nat.to_uint i))%string.

(** [p] holds exactly the values [l] under [prefix0 .. prefix(n-1)], in whatever
    position, and no other key starting with [prefix]. *)
Definition flat_family (p : dict pyval) (prefix : string) (l : list pyval) : Prop :=
  (forall i, dget p (flat_name prefix i) = nth_error l i) /\
  (forall k, In k (dkeys p) -> String.prefix prefix k = true -> exists i, k = flat_name prefix i) /\
  ~ In VNone l.

(** Expected lookup after conversion. *)
Definition spec_flat_lookup (p : dict pyval) (rbc rbt rsc rst : list pyval) (k : string) : option pyval :=
  if (String.prefix "rb_coef" k || String.prefix "rb_tim" k ||
      String.prefix "rs_coef" k || String.prefix "rs_tim" k)%bool then None
  else if (String.eqb k "rb_function" && negb (Nat.eqb (List.length rbc) 0))%bool then Some (VFun rbc rbt)
  else if (String.eqb k "rs_function" && negb (Nat.eqb (List.length rsc) 0))%bool then Some (VFun rsc rst)
  else dget p k.

(** Expected counts: as many b-coefficients as timescales, one more s-coefficient than
    timescales; a family that is absent altogether is fine. *)
Definition spec_flat_counts (rbc rbt rsc rst : list pyval) : bool :=
  Nat.eqb (List.length rbc) (List.length rbt) &&
  ((Nat.eqb (List.length rsc) 0 && Nat.eqb (List.length rst) 0) ||
   Nat.eqb (List.length rsc) (List.length rst + 1))%bool.

Local Notation fl q := (VFloat (FFin q)).
(** Parameters of the default carbon cycle and the values they have when nothing is configured. *)
Definition carbon_defaults : list (string * pyval) :=
  [ ("beta_f", fl (287 # 1000)); ("mixed_carbon", fl (75 # 1)); ("preindustrial_co2_conc", fl (278 # 1));
    ("ml_w_sigmoid", fl (3 # 1)); ("ml_fracmax", fl (5 # 10)); ("ml_t_half", fl (5 # 10)); ("ml_depth_min", fl (10 # 1));
    ("t_half", fl (5 # 10)); ("w_sigmoid", VInt 7); ("t_threshold", VInt 4); ("w_threshold", VInt 7);
    ("solubility_sens", fl (2 # 100)); ("solubility_limit", fl (5 # 10)) ].

(** A non-empty string of decimal digits. *)
Definition decimal (s : string) : Prop :=
  s <> "" /\ forall n c, String.get n s = Some c -> (48 <= Ascii.nat_of_ascii c <= 57)%nat.
