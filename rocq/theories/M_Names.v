(** * M_Names: compound names, /repo/src/ciceroscm/pub_utils.py

    Strings are sequences of bytes: digits and white space outside ASCII are not modelled. *)
From Coq Require Import Ascii.
From Verif Require Import PyBase Num M_Utils M_Gas.

(** ** Python strings *)
(** [sub in s] *)
Fixpoint contains (sub s : string) {struct s} : bool :=
  String.prefix sub s || match s with EmptyString => false | String _ r => contains sub r end.
(** [s[n:]] *)
Fixpoint sdrop (n : nat) (s : string) {struct n} : string :=
  match n, s with O, _ => s | S n, String _ r => sdrop n r | S _, EmptyString => EmptyString end.
(** the part after the first occurrence of [sep] *)
Fixpoint after (sep s : string) {struct s} : option string :=
  if String.prefix sep s then Some (sdrop (String.length sep) s)
  else match s with EmptyString => None | String _ r => after sep r end.
(** [s.split(sep)[-1]] for a separator that is not empty *)
Fixpoint split_last_fuel (fuel : nat) (sep s : string) {struct fuel} : string :=
  match fuel with
  | O => s
  | S fuel => match after sep s with None => s | Some r => split_last_fuel fuel sep r end
  end.
Definition split_last (sep s : string) : string := split_last_fuel (String.length s) sep s.
Definition digit (a : ascii) : option Z :=
  let n := nat_of_ascii a in if Nat.leb 48 n && Nat.leb n 57 then Some (Z.of_nat n - 48)%Z else None.
Definition isdigit (a : ascii) : bool := match digit a with Some _ => true | None => false end.
Definition space (a : ascii) : bool :=
  let n := nat_of_ascii a in (Nat.leb 9 n && Nat.leb n 13) || (Nat.leb 28 n && Nat.leb n 32).
Fixpoint lstrip (s : string) : string :=
  match s with EmptyString => EmptyString | String a r => if space a then lstrip r else s end.
Fixpoint rstrip (s : string) : string :=
  match s with
  | EmptyString => EmptyString
  | String a r => let r' := rstrip r in if space a && String.eqb r' "" then EmptyString else String a r'
  end.
(** digits, with single underscores between them *)
Fixpoint int_more (acc : Z) (s : string) {struct s} : result Z :=
  match s with
  | EmptyString => Ok acc
  | String a r =>
      match digit a with
      | Some d => int_more (10 * acc + d) r
      | None => if Ascii.eqb a "_"
                then match r with
                     | String b r' => match digit b with Some d => int_more (10 * acc + d) r' | None => Err ValueError end
                     | EmptyString => Err ValueError
                     end
                else Err ValueError
      end
  end.
Definition int_unsigned (s : string) : result Z :=
  match s with
  | EmptyString => Err ValueError
  | String a r => match digit a with Some d => int_more d r | None => Err ValueError end
  end.
(** [int(s)] *)
Definition py_int (s : string) : result Z :=
  match rstrip (lstrip s) with
  | String a r => if Ascii.eqb a "+" then int_unsigned r
                  else if Ascii.eqb a "-" then do z <- int_unsigned r; Ok (- z)%Z
                  else int_unsigned (String a r)
  | EmptyString => Err ValueError
  end.
(** [s[n]], n >= 0; [s[-1]]; [s[:-1]] *)
Definition char_at (s : string) (n : nat) : result ascii := match String.get n s with Some a => Ok a | None => Err IndexError end.
Definition last_char (s : string) : result ascii := char_at s (String.length s - 1).
Definition butlast (s : string) : string := substring 0 (String.length s - 1) s.

(** ** 104-130: [find_num_cl_in_hcfc] *)
Definition find_num_cl_in_hcfc (tracer : string) : result Z :=
  let numpart := split_last "-" tracer in
  do l <- last_char numpart;
  do numpart <- (if negb (isdigit l) then py_int (butlast numpart) else py_int numpart);
  let double_bonds := (numpart / 1000)%Z in
  let bonds_total := ((numpart mod 1000) / 100 * 2 + 4)%Z in
  let hydrogen := ((numpart mod 100) / 10 - 1)%Z in
  let fluorine := (numpart mod 10)%Z in
  Ok (bonds_total - 2 * double_bonds - hydrogen - fluorine)%Z.

(** ** 133-172: [make_cl_and_br_dictionaries] *)
Definition one_char (a : ascii) : string := String a EmptyString.
(** 160-163, 165-168: the digit after the last "Cl" (or "Br"), or 1 *)
Definition atoms_of (symbol tracer : string) : result Z :=
  match split_last symbol tracer with
  | String a _ => if isdigit a then py_int (one_char a) else Ok 1%Z
  | EmptyString => Ok 1%Z
  end.
(** 153-168: one turn of the loop *)
Definition classify (tracer : string) (d : dict Z * dict Z) : result (dict Z * dict Z) :=
  let (chlor_dict, brom_dict) := d in
  if contains "CFC-" tracer then do n <- find_num_cl_in_hcfc tracer; Ok (dset chlor_dict tracer n, brom_dict)
  else if String.eqb (substring 0 2 tracer) "H-" then
    do c5 <- char_at tracer 5; do br <- py_int (one_char c5);
    let brom_dict := dset brom_dict tracer br in
    do c4 <- char_at tracer 4; do cl <- py_int (one_char c4);
    if (0 <? cl)%Z
    then do c4 <- char_at tracer 4; do cl <- py_int (one_char c4); Ok (dset chlor_dict tracer cl, brom_dict)
    else Ok (chlor_dict, brom_dict)
  else if contains "Cl" tracer then do n <- atoms_of "Cl" tracer; Ok (dset chlor_dict tracer n, brom_dict)
  else if contains "Br" tracer then do n <- atoms_of "Br" tracer; Ok (chlor_dict, dset brom_dict tracer n)
  else Ok (chlor_dict, brom_dict).
Fixpoint classify_all (gases : list string) (d : dict Z * dict Z) {struct gases} : result (dict Z * dict Z) :=
  match gases with [] => Ok d | t :: r => do d <- classify t d; classify_all r d end.
Definition make_cl_and_br_dictionaries (gases_index : list string) : result (dict Z * dict Z) := classify_all gases_index ([], []).

(** ** 13-19, 175-214: [make_regional_aerosol_gaspamdata].

    A table is a dictionary of rows, a row a dictionary of cells; index labels are assumed distinct. [forcing]
    has the columns as keys, each a dictionary by region. *)
Definition REG_MAPPING_DEFAULT : dict string := [("ASIA", "EAS"); ("LAM", "SAM"); ("MAF", "NAF"); ("OECD", "NAM"); ("REF", "RBU")].
Section Regional.
Context {A : Type} {N : Num A}.
Local Open Scope num_scope.
(** 207-213. [row_start] is one object whose ALPHA is overwritten in each turn *)
Fixpoint add_regions (column : string) (by_region : dict A) (unit_conversion : A) (mapping : dict string) (row : dict A) (gases : dict (dict A))
  {struct mapping} : result (dict (dict A)) :=
  match mapping with
  | [] => Ok gases
  | (k, expression) :: rest =>
      do x <- key expression (dget by_region expression);
      let row := dset row "ALPHA" (x * unit_conversion) in
      add_regions column by_region unit_conversion rest row (dset gases (column ++ "_" ++ k) row)
  end.
Fixpoint add_columns (gases_data : dict (dict A)) (forcing : dict (dict A)) (mapping : dict string) (unit_conversion : A) (gases : dict (dict A))
  {struct forcing} : result (dict (dict A)) :=
  match forcing with
  | [] => Ok gases
  | (column, by_region) :: rest =>
      do row <- key column (dget gases_data column);
      do gases <- add_regions column by_region unit_conversion mapping row gases;
      add_columns gases_data rest mapping unit_conversion gases
  end.
Definition make_regional_aerosol_gaspamdata (gases_data forcing : dict (dict A)) (reg_mapping : option (dict string)) (unit_conversion : A) :=
  add_columns gases_data forcing (match reg_mapping with Some m => m | None => REG_MAPPING_DEFAULT end) unit_conversion gases_data.
End Regional.
