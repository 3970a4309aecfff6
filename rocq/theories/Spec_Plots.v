(** * Spec_Plots: what the pictures of a run should show *)
From Verif Require Import PyBase M_Plots.

(** The pictures saved by a list of drawing steps: rows of the figure, file name, panels in order. *)
Fixpoint pictures_from (rows : nat) (drawn : list (nat * nat * string)) (log : list drawing) : list (nat * string * list (nat * nat * string)) :=
  match log with
  | [] => []
  | Open r _ :: rest => pictures_from r [] rest
  | Panel i j c _ _ :: rest => pictures_from rows (drawn ++ [(i, j, c)]) rest
  | Save f :: rest => (rows, f, drawn) :: pictures_from rows drawn rest
  | _ :: rest => pictures_from rows drawn rest
  end.
Definition pictures (log : list drawing) := pictures_from 0 [] log.

(** Up to sixteen components in each of the first two pictures, all others in the third; four panels in a row. *)
Definition pages (shown : list string) : list (list string) :=
  filter (fun l => match l with [] => false | _ => true end) [firstn 16 shown; firstn 16 (skipn 16 shown); skipn 32 shown].
Definition layout (l : list string) : list (nat * nat * string) :=
  map (fun kc => (fst kc / 4, fst kc mod 4, snd kc)) (combine (seq 0 (List.length l)) l).
Definition picture_names (var : plot_var) : list string :=
  match var with
  | PForc => ["forc_1.png"; "forc_2.png"; "forc_3.png"]
  | PEmis => ["em_1.png"; "em_2.png"; "em_3.png"]
  | PConc => ["conc_1.png"; "conc_2.png"; "conc_3.png"]
  end.
Definition expected_pictures (var : plot_var) (shown : list string) : list (string * list (nat * nat * string)) :=
  combine (picture_names var) (map layout (pages shown)).

(** A column is drawn unless it has no unit (emissions, concentrations) or is one of six (forcing). *)
Definition drawn (var : plot_var) (unit : dict string) (c : string) : Prop :=
  match var with
  | PForc => ~ In c ["NOx"; "CO"; "NMVOC"; "NH3"; "BMB_AEROS_OC"; "BMB_AEROS_BC"]
  | _ => dget unit c <> Some "X"
  end.
(** [shown] are the columns of [cols] that are drawn, after the first such column. *)
Inductive select_drawn (d : string -> Prop) : list string -> list string -> Prop :=
| sd_nil : select_drawn d [] []
| sd_take : forall c l l', d c -> select_drawn d l l' -> select_drawn d (c :: l) (c :: l')
| sd_skip : forall c l l', ~ d c -> select_drawn d l l' -> select_drawn d (c :: l) l'.
(** every label the plot looks up exists *)
Definition labels_known (var : plot_var) (unit : dict string) (cols shown : list string) : Prop :=
  match var with
  | PForc => forall c, In c ["NOx"; "CO"; "NMVOC"; "NH3"; "BMB_AEROS_OC"; "BMB_AEROS_BC"] -> In c cols
  | _ => forall c, In c shown -> exists u, dget unit c = Some u
  end.

(** the columns drawn, in order *)
Definition columns_drawn (p : list (nat * string * list (nat * nat * string))) : list string :=
  flat_map (fun x => map snd (snd x)) p.
(** the picture lies within its grid of rows and four columns, no panel is used twice *)
Definition well_placed (p : nat * string * list (nat * nat * string)) : Prop :=
  (forall i j c, In (i, j, c) (snd p) -> i < fst (fst p) /\ j < 4) /\ NoDup (map fst (snd p)).
Definition file_and_panels (p : nat * string * list (nat * nat * string)) : string * list (nat * nat * string) := (snd (fst p), snd p).

(** ** Every step of the drawing, picture by picture *)
Definition picture_title (var : plot_var) (number : string) : string :=
  (match var with
   | PForc => "CICERO SCM simulation, Radiative Forcing " ++ number ++ " of 3"
   | PEmis => "CICERO SCM simulation, Emissions " ++ number ++ " of 3"
   | PConc => "CICERO SCM simulation, Concentrations " ++ number ++ " of 2"
   end)%string.
(** the unit in brackets, not for forcing *)
Definition unit_labels (var : plot_var) (unit : dict string) (c : string) : list string :=
  match var, dget unit c with PForc, _ | _, None => [] | _, Some u => [("[" ++ u ++ "]")%string] end.
(** component number [k] of a picture: place, title, letter (97 is "a"), unit *)
Definition panel_steps (var : plot_var) (unit : dict string) (k : nat) (c : string) : list drawing :=
  Panel (k / 4) (k mod 4) c (if String.eqb c "Total_forcing" then "Total anthropogenic" else c) (97 + k) ::
  map (YLabel (k / 4) (k mod 4)) (unit_labels var unit c).
Fixpoint panels_steps (var : plot_var) (unit : dict string) (k : nat) (l : list string) : list drawing :=
  match l with [] => [] | c :: r => panel_steps var unit k c ++ panels_steps var unit (S k) r end.
(** the empty places behind the last of [n] panels, in its row *)
Definition empty_places (n : nat) : list drawing :=
  map (Remove (n / 4)) (match n mod 4 with 0 => [] | 1 => [1; 2; 3] | 2 => [2; 3] | _ => [3] end).
Definition picture_steps (var : plot_var) (unit : dict string) (rows : nat) (number file : string) (l : list string) (final : bool) : list drawing :=
  [Open rows (picture_title var number)] ++ panels_steps var unit 0 l ++ (if final then empty_places (List.length l) else []) ++ [Save file].
(** rows for [n] panels, four in a row *)
Definition rows_for (n : nat) : nat := (n + 3) / 4.
Definition expected_steps (var : plot_var) (unit : dict string) (shown : list string) : list drawing :=
  match picture_names var with
  | [f1; f2; f3] =>
      let a := firstn 16 shown in let b := firstn 16 (skipn 16 shown) in let c := skipn 32 shown in
      match b, c with
      | [], _ => match a with [] => [] | _ => picture_steps var unit 4 "1" f1 a true end
      | _, [] => picture_steps var unit 4 "1" f1 a false ++ picture_steps var unit 4 "2" f2 b true
      | _, _ => picture_steps var unit 4 "1" f1 a false ++ picture_steps var unit 4 "2" f2 b false ++
                picture_steps var unit (rows_for (List.length c)) "3" f3 c true
      end
  | _ => []
  end.
(** all panels that were drawn, saved or not *)
Definition panels_drawn (log : list drawing) : list string :=
  flat_map (fun d => match d with Panel _ _ c _ _ => [c] | _ => [] end) log.

(** ** The pictures of temperature, heat content and imbalance: axis and series of each line *)
Definition expected_lines : list (string * list (nat * string)) :=
  [("ohc.png", [(0, "OHC700"); (1, "OHCTOT")]);
   ("rib.png", [(0, "RIB_glob"); (1, "RIB_glob"); (1, "RIB_N"); (1, "RIB_S")]);
   ("temp.png", [(0, "dT_glob"); (0, "dT_glob_air"); (0, "dT_glob_sea"); (1, "dT_NH"); (1, "dT_NH_air"); (1, "dT_NH_sea");
                 (1, "dT_SH"); (1, "dT_SH_air"); (1, "dT_SHsea")])].
