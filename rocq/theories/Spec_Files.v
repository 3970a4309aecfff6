(** * Spec_Files: which file holds what (C97) *)
From Verif Require Import PyBase Num M_Gas M_Driver Spec_Driver.

(** the files of the frames *)
Definition frame_files (carbon : bool) : list (string * string) :=
  [("emissions", "em"); ("concentrations", "conc"); ("forcing", "forc")] ++ if carbon then [("carbon cycle", "carbon")] else [].
(** the files of the arrays, with their columns *)
Definition array_files : list (string * list string) :=
  [("ohc", ["OHC700"; "OHCTOT"]); ("rib", ["RIB_glob"; "RIB_N"; "RIB_S"]);
   ("temp", ["dT_glob"; "dT_NH"; "dT_SH"; "dT_glob_air"; "dT_NH_air"; "dT_SH_air"; "dT_glob_sea"; "dT_NH_sea"; "dT_SHsea"]);
   ("sunvolc", ["Solar_forcing"; "Volcanic_forcing_NH"; "Volcanic_forcing_SH"])].
(** all files of an emission or concentration run, in the order of writing *)
Definition run_files (carbon : bool) : list string :=
  ["em"; "conc"; "forc"] ++ (if carbon then ["carbon"; "carbon"] else []) ++ ["ohc"; "rib"; "temp"; "sunvolc"].
(** a thermal model with an output for every column *)
Definition all_columns (names : dict string) : Prop :=
  distinct_outputs names /\ forall f ks k, In (f, ks) array_files -> In k ks -> In k (output_names names).

(** What was written is what the other way of running returns. *)
Record same_data {A H H'} (carbon : bool) (dict_run : outcome A H) (file_run : outcome A H') : Prop := {
  sd_files : map fst (o_files file_run) = run_files carbon;
  sd_frames : forall k f, In (k, f) (frame_files carbon) -> exists fr, dget (o_results dict_run) k = Some (Fr fr) /\
    forall cols, In (f, cols) (o_files file_run) -> cols = fr_cols fr;
  sd_arrays : forall f ks, In (f, ks) array_files -> exists cols, In (f, cols) (o_files file_run) /\ dkeys cols = ks /\
    forall k l, In (k, l) cols -> dget (o_results dict_run) k = Some (Arr l) /\ dget (o_results file_run) k = Some (Arr l) }.
