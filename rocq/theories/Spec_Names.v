(** * Spec_Names: molecules, their numbers and names *)
From Coq Require Import Ascii DecimalString.
From Verif Require Import PyBase M_Names.

(** ** Refrigerant numbers *)
Record molecule := { carbon : nat; hydrogen : nat; fluorine : nat; chlorine : nat; double_bonds : nat }.
(** every carbon has four bonds *)
Definition balanced (m : molecule) : Prop := hydrogen m + fluorine m + chlorine m + 2 * double_bonds m = 2 * carbon m + 2.
(** the digits of the number are: double bonds, carbon less one, hydrogen plus one, fluorine *)
Definition one_digit (m : molecule) : Prop := 1 <= carbon m <= 10 /\ hydrogen m <= 8 /\ fluorine m <= 9.
Definition number (m : molecule) : nat := 1000 * double_bonds m + 100 * (carbon m - 1) + 10 * (hydrogen m + 1) + fluorine m.
Definition printed (n : nat) : string := NilEmpty.string_of_uint (Nat.to_uint n).
Definition is_digit (a : ascii) : Prop := In a ["0"; "1"; "2"; "3"; "4"; "5"; "6"; "7"; "8"; "9"]%char.

(** ** Names *)
Definition occurs (sub s : string) : Prop := exists a b, s = (a ++ sub ++ b)%string.
Definition freon (t : string) : Prop := occurs "CFC-" t.
Definition halon (t : string) : Prop := ~ freon t /\ exists r, t = ("H-" ++ r)%string.
Definition chloride (t : string) : Prop := ~ freon t /\ ~ halon t /\ occurs "Cl" t.
Definition bromide (t : string) : Prop := ~ freon t /\ ~ halon t /\ ~ occurs "Cl" t /\ occurs "Br" t.
(** the character at position [n] is the digit [d] *)
Definition digit_at (t : string) (n : nat) (d : Z) : Prop := exists a, String.get n t = Some a /\ digit a = Some d.
(** atoms in the last group of an element: the digit after the symbol, or one *)
Definition atoms (symbol t : string) (n : Z) : Prop :=
  exists a r, t = (a ++ symbol ++ r)%string /\ ~ occurs symbol r /\ (digit_at r 0 n \/ (~ (exists d, digit_at r 0 d) /\ n = 1%Z)).
Definition chlorine_entry (t : string) (n : Z) : Prop :=
  freon t /\ find_num_cl_in_hcfc t = Ok n \/ halon t /\ digit_at t 4 n /\ (0 < n)%Z \/ chloride t /\ atoms "Cl" t n.
Definition bromine_entry (t : string) (n : Z) : Prop := halon t /\ digit_at t 5 n \/ bromide t /\ atoms "Br" t n.
(** the names that can be read *)
Definition readable (t : string) : Prop :=
  (freon t -> exists n, find_num_cl_in_hcfc t = Ok n) /\ (halon t -> exists n m, digit_at t 4 n /\ digit_at t 5 m).

(** Regions of aerosol emissions and the forcing regions they stand for, if no mapping is given. *)
Definition default_regions : dict string := [("ASIA", "EAS"); ("LAM", "SAM"); ("MAF", "NAF"); ("OECD", "NAM"); ("REF", "RBU")].
(** ** Regional rows *)
Definition regional_name (c k : string) : string := (c ++ "_" ++ k)%string.
Definition regional_names {V} (forcing : dict V) (mapping : dict string) : list string :=
  flat_map (fun c => map (fun k => regional_name c k) (dkeys mapping)) (dkeys forcing).
(** every column is a row of the gas table, every region of the mapping has a value *)
Definition all_given {A} (gases forcing : dict (dict A)) (m : dict string) : Prop :=
  forall c by_region, In (c, by_region) forcing -> dmem gases c = true /\ forall k region, In (k, region) m -> dmem by_region region = true.
