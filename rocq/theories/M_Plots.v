(** * M_Plots: the plots of a run, /repo/src/ciceroscm/make_plots.py 45-233.

    A plot is the list of things done to figures, up to an exception. Sizes, colours, line styles, axis labels other
    than units and the layout calls are left out. The folder is taken to exist: [plot_output1] (61-64) makes it in the same run. *)
From Verif Require Import PyBase Num M_Gas M_Names M_Distro M_Driver.

Inductive drawing :=
| Open (rows : nat) (title : string)              (* plt.subplots(nrows=rows, ncols=4) *)
| Panel (i j : nat) (column title : string) (letter : nat) (* axs[i, j].plot(years, df_in[column]); letter is a code point *)
| YLabel (i j : nat) (label : string)
| Remove (i j : nat)                              (* fig.delaxes *)
| Save (fname : string).

(** ** 135-233: [plot_output2] *)
Inductive plot_var := PForc | PEmis | PConc.

(** 152-170: the columns that are kept. [unit] is a series with distinct labels, not used for forcing. A label to
    drop that is no column is a KeyError. *)
Definition no_plot_forc : list string := ["NOx"; "CO"; "NMVOC"; "NH3"; "BMB_AEROS_OC"; "BMB_AEROS_BC"].
Definition kept_columns (var : plot_var) (unit : dict string) (cols : list string) : result (list string) :=
  match var with
  | PForc => match find (fun c => negb (smem c cols)) no_plot_forc with
             | Some c => Err (KeyError c)
             | None => Ok (filter (fun c => negb (smem c no_plot_forc)) cols)
             end
  | _ => Ok (filter (fun c => negb (match dget unit c with Some u => String.eqb u "X" | None => false end)) cols)
  end.

(** 175-203: title and file name of the figure opened at component number [c] *)
Definition figure_number (c : nat) : string := str_of (c / 16 + 1).
Definition figure_title (var : plot_var) (c : nat) : string :=
  (match var with
   | PForc => "CICERO SCM simulation, Radiative Forcing " ++ figure_number c ++ " of 3"
   | PEmis => "CICERO SCM simulation, Emissions " ++ figure_number c ++ " of 3"
   | PConc => "CICERO SCM simulation, Concentrations " ++ figure_number c ++ " of 2"
   end)%string.
Definition figure_file (var : plot_var) (c : nat) : string :=
  (match var with PForc => "forc_" | PEmis => "em_" | PConc => "conc_" end ++ figure_number c ++ ".png")%string.
(** the open figure: its rows, its file name, the next panel *)
Record figure := { f_rows : nat; f_name : string; f_i : nat; f_j : nat }.
(** 176-178: [np.ceil] of the quotient *)
Definition open_figure (var : plot_var) (n c : nat) : figure :=
  {| f_rows := if Nat.eqb c 32 then (n - 32 + 3) / 4 else 4; f_name := figure_file var c; f_i := 0; f_j := 0 |}.

(** 206-217. With one row, [plt.subplots] gives a one-dimensional array of axes, and [axs[i, j]] is an IndexError. *)
Definition panel (f : figure) (comp : string) : result drawing :=
  if Nat.eqb (f_rows f) 1 || Nat.leb (f_rows f) (f_i f) then Err IndexError
  else Ok (Panel (f_i f) (f_j f) comp (if String.eqb comp "Total_forcing" then "Total anthropogenic" else comp)
                 (f_i f * 4 + f_j f + 97)).
(** 217-219 *)
Definition unit_label (var : plot_var) (unit : dict string) (f : figure) (comp : string) : result (list drawing) :=
  match var with
  | PForc => Ok []
  | _ => match dget unit comp with
         | Some u => Ok [YLabel (f_i f) (f_j f) ("[" ++ u ++ "]")%string]
         | None => Err (KeyError comp)
         end
  end.
(** 220-231 *)
Definition close_figure (n c : nat) (f : figure) : list drawing :=
  if Nat.eqb c 15 || Nat.eqb c 31 || Nat.eqb (S c) n then
    (if Nat.eqb (S c) n then map (Remove (f_i f)) (seq (S (f_j f)) (4 - S (f_j f))) else []) ++ [Save (f_name f)]
  else [].
(** 230-233 *)
Definition next_panel (f : figure) : figure :=
  if Nat.eqb (S (f_j f)) 4 then {| f_rows := f_rows f; f_name := f_name f; f_i := S (f_i f); f_j := 0 |}
  else {| f_rows := f_rows f; f_name := f_name f; f_i := f_i f; f_j := S (f_j f) |}.

(** 173-233: the loop; [n] is [len(comps)], [c] the number of the component, [fig] the figure left by the turn before
    (None before the first one, which always opens a figure; else an UnboundLocalError) *)
Fixpoint plot_panels (var : plot_var) (unit : dict string) (n c : nat) (comps : list string) (fig : option figure)
  {struct comps} : list drawing * option exn :=
  match comps with
  | [] => ([], None)
  | comp :: rest =>
      let opens := Nat.eqb c 0 || Nat.eqb c 16 || Nat.eqb c 32 in
      let before := if opens then [Open (f_rows (open_figure var n c)) (figure_title var c)] else [] in
      match (if opens then Some (open_figure var n c) else fig) with
      | None => (before, Some (UserExn 2))
      | Some f =>
          match panel f comp with
          | Err e => (before, Some e)
          | Ok p =>
              match unit_label var unit f comp with
              | Err e => (before ++ [p], Some e)
              | Ok l =>
                  let '(more, e) := plot_panels var unit n (S c) rest (Some (next_panel f)) in
                  (before ++ [p] ++ l ++ close_figure n c f ++ more, e)
              end
          end
      end
  end.
(** 135-233, on the names of the columns *)
Definition plot_output2 (var : plot_var) (unit : dict string) (cols : list string) : list drawing * option exn :=
  match kept_columns var unit cols with
  | Err e => ([], Some e)
  | Ok kept =>
      if smem "Year" kept then let comps := tl kept in plot_panels var unit (List.length comps) 0 comps None
      else ([], Some (KeyError "Year"))
  end.

(** ** 45-132: [plot_output1]. A picture is its file name with the results drawn, each with the number of its axis.
    Nothing is done, without an exception, when the output folder does not exist. *)
Definition ohc_plot : list (nat * string) := [(0, "OHC700"); (1, "OHCTOT")].
Definition rib_plot : list (nat * string) := [(0, "RIB_glob"); (1, "RIB_glob"); (1, "RIB_N"); (1, "RIB_S")].
Definition temp_plot : list (nat * string) :=
  [(0, "dT_glob"); (0, "dT_glob_air"); (0, "dT_glob_sea");
   (1, "dT_NH"); (1, "dT_NH_air"); (1, "dT_NH_sea"); (1, "dT_SH"); (1, "dT_SH_air"); (1, "dT_SHsea")].
Section Plot1.
Context {A : Type}.
Fixpoint save_plots (r : results A) (l : list (string * list (nat * string))) {struct l}
  : list (string * list (nat * string * list A)) * option exn :=
  match l with
  | [] => ([], None)
  | (name, lines) :: rest =>
      match mapM (fun nk => do v <- arr_of (snd nk) r; Ok (nk, v)) lines with
      | Err e => ([], Some e)
      | Ok drawn => let '(more, e) := save_plots r rest in ((name, drawn) :: more, e)
      end
  end.
Definition plot_output1 (folder_exists : bool) (r : results A) : list (string * list (nat * string * list A)) * option exn :=
  if folder_exists then save_plots r [("ohc.png", ohc_plot); ("rib.png", rib_plot); ("temp.png", temp_plot)]
  else ([], None).
End Plot1.

(** ** ciceroscm.py 231-324 with [make_plot=True] and [results_as_dict]: [plot_output1] (305-306) comes before the
    results of the handler are added *)
Section PlottedRun.
Context {A T H : Type} {N : Num A}.
Variables (th : thermal A T) (c : inst A) (emi2conc : H -> Z -> option (dict A) -> result H)
  (conc2forc : H -> Z -> A -> A -> result (H * (A * A * A * A)))
  (add_results : H -> bool -> dict (list A) -> result (dict (frame A))) (feedback_list : option (list string)).
Definition run_plotted (folder_exists : bool) (t0 : T) (h0 : H) (carbon : bool) (r : results A)
  : outcome A H * list (string * list (nat * string * list A)) :=
  let '(s, e) := run_years T th c H emi2conc conc2forc feedback_list t0 h0 r in
  let plain := run T th c H emi2conc conc2forc add_results feedback_list t0 h0 true carbon r in
  match e with
  | Some _ => (plain, [])
  | None =>
      match plot_output1 folder_exists (l_res s) with
      | (pictures, Some e) => ({| o_results := l_res s; o_handler := l_h s; o_files := []; o_exn := Some e |}, pictures)
      | (pictures, None) => (plain, pictures)
      end
  end.
End PlottedRun.
