(** * Spec_Reading: what the input of an instance is, in terms of files and configuration (C102-C104) *)
From Verif Require Import PyBase Num M_Gas M_Driver M_Input M_Whole M_Reading Spec_Input.

Section Reading.
Context {A : Type} {N : Num A}.
Variables (nan : A) (fs : files A) (object : pyval -> option (thing A)) (dir cwd : string).

(** Input [what] of a configuration is [t]: what reading (or taking) its source gives. *)
Definition input (cfg : dict pyval) (what : string) (t : thing A) : Prop :=
  exists m d, dget (spec_methods cfg) what = Some m /\
    source (fs_exists fs) (gas_table nan fs object) dir cwd cfg what m d /\ content nan fs object d = Ok t.
Definition optional_input (cfg : dict pyval) (what : string) (o : option (thing A)) : Prop :=
  match o with Some t => given cfg what = true /\ input cfg what t | None => given cfg what = false end.
(** the first cells of rows *)
Definition first_cells (rows : list (list A)) (l : list A) : Prop := map (@hd_error A) rows = map Some l.

(** Emission and concentration files: distinct names, one row for each of some consecutive years, a number in every column. *)
Record tidy (f : yearfile A) : Prop := {
  td_names : NoDup (yf_names f);
  td_years : exists first, map fst (yf_rows f) = zrange first (List.length (yf_rows f));
  td_cells : forall y row, In (y, row) (yf_rows f) -> List.length row = List.length (yf_names f) }.
Definition cell (f : yearfile A) (y : Z) (c : string) (v : A) : Prop :=
  exists row j, In (y, row) (yf_rows f) /\ nth_error (yf_names f) j = Some c /\ nth_error row j = Some v.
(** the column of the emission file that an emission column comes from *)
Definition emission_column (c : string) : option string :=
  if smem c ["CO2"; "CO2.1"] then None
  else Some (if String.eqb c "CO2_FF" then "CO2" else if String.eqb c "CO2_AFOLU" then "CO2.1" else c).
(** first and last year of the run *)
Definition run_window (cfg : dict pyval) (a b : Z) : Prop :=
  int_of (number cfg "nystart" 1750) = Ok a /\ int_of (number cfg "nyend" 2100) = Ok b.

(** The emission file has a column with unit for every gas that has emissions and concentrations of its own. *)
Definition all_gases_listed (cfg : dict pyval) : Prop :=
  forall p f g, dget cfg "emissions_file" = Some p -> fs_years fs (CV p) = Ok f -> input cfg "gaspam" (TGas g) ->
  forall k, In k (dkeys g) -> ~ In k no_em -> k <> "CO2.1" /\ exists u, In (k, u) (combine (yf_names f) (yf_units f)).

(** ** Two disks with the same content for the years of a run *)
Definition covers (f : yearfile A) (a b : Z) : Prop := forall y, (a <= y <= b)%Z -> In y (map fst (yf_rows f)).
Definition same_years (a b : Z) (r r' : result (yearfile A)) : Prop :=
  match r, r' with
  | Ok f, Ok f' => yf_names f = yf_names f' /\ yf_units f = yf_units f' /\
      (f = f' \/ tidy f /\ tidy f' /\ covers f a b /\ covers f' a b /\
        forall y row, (a <= y <= b)%Z -> In (y, row) (yf_rows f) <-> In (y, row) (yf_rows f'))
  | Err e, Err e' => e = e'
  | _, _ => False
  end.
(** row [i] of a file with a row for each year is that of 1750 + i *)
Definition same_rows (a b : Z) (r r' : result (list (list A))) : Prop :=
  match r, r' with
  | Ok l, Ok l' => l = l' \/ (1750 <= a)%Z /\ forall y, (a <= y <= b)%Z ->
      nth_error l (Z.to_nat (y - 1750)) <> None /\ nth_error l (Z.to_nat (y - 1750)) = nth_error l' (Z.to_nat (y - 1750))
  | Err e, Err e' => e = e'
  | _, _ => False
  end.
End Reading.
(** The disks differ at most in the rows of other years of emission and concentration files and of files with a row for each year. *)
Record same_in_window {A} (a b : Z) (fs fs' : files A) : Prop := {
  sw_exists : forall p, fs_exists fs p = fs_exists fs' p;
  sw_line : forall p, fs_first_line fs p = fs_first_line fs' p;
  sw_numbers : forall p, fs_numbers fs p = fs_numbers fs' p;
  sw_components : forall p, fs_components fs p = fs_components fs' p;
  sw_gas : forall p, fs_gas fs p = fs_gas fs' p;
  sw_column : forall p, fs_column fs p = fs_column fs' p;
  sw_perturb : forall p, fs_perturb fs p = fs_perturb fs' p;
  sw_years : forall p, same_years a b (fs_years fs p) (fs_years fs' p);
  sw_rows : forall p, same_rows a b (fs_rows fs p) (fs_rows fs' p) }.
(** The configuration with an object in the place of a file. *)
Definition with_object (cfg : dict pyval) (what : string) (v : pyval) : dict pyval :=
  dset (ddel cfg (what ++ "_file")) (what ++ "_data") v.
