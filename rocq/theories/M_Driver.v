(** * M_Driver: the yearly loop, the result arrays and the file writer,
      /repo/src/ciceroscm/ciceroscm.py 21-26, 143-430 *)
From Verif Require Import PyBase Num M_Gas M_TwoLayer M_UDM M_Forcing.

Section Driver.
Context {A : Type} {N : Num A}.
Local Open Scope num_scope.

(** ** Values kept in [self.results]: an array or a pandas frame *)
Inductive rval := Arr (l : list A) | Fr (f : frame A).
Definition results := dict rval.

(** A thermal model as the driver sees it: [get_output_dict_thermal()], and one call of
    [set_feedback_gregory] followed by [energy_budget] giving the returned dictionary. Array valued
    entries of that dictionary ("tn", "ts" of the upwelling-diffusion model) are never read by the
    driver and are left out. *)
Record thermal (T : Type) := {
  t_names : dict string;
  t_year : T -> tl_in A -> result (T * dict A) }.

(** two_layer_ocean.py 40-49 *)
Definition tl_names : dict string :=
  [("RIB_glob", "RIB"); ("dT_glob", "dtemp"); ("OHC_MIXED", "OHC_MIXED"); ("OHC_DEEP", "OHC_DEEP");
   ("OHC700", "OHC700"); ("OHCTOT", "OHCTOT"); ("dT_fast", "dtemp_fast"); ("dT_slow", "dtemp_slow")].
(** two_layer_ocean.py 221-231 *)
Definition tl_values (o : tl_out A) : dict A :=
  [("dtemp", o_dtemp o); ("dtemp_fast", o_fast o); ("dtemp_slow", o_slow o); ("RIB", o_RIB o);
   ("OHCTOT", o_OHCTOT o); ("OHC_MIXED", o_OHC_MIXED o); ("OHC_DEEP", o_OHC_DEEP o);
   ("dtemp_sea", o_sea o); ("OHC700", o_OHC700 o)].
Definition tl_thermal (p : tl_pam A) : thermal (tl_state A) :=
  {| t_names := tl_names;
     t_year := fun s i => let '(s', o) := tl_year p s i in Ok (s', tl_values o) |}.

(** upwelling_diffusion_model.py 134-149 *)
Definition ud_names : dict string :=
  [("RIB_glob", "RIB"); ("RIB_N", "RIBN"); ("RIB_S", "RIBS");
   ("dT_glob", "dtemp"); ("dT_NH", "dtempnh"); ("dT_SH", "dtempsh");
   ("dT_glob_air", "dtemp_air"); ("dT_NH_air", "dtempnh_air"); ("dT_SH_air", "dtempsh_air");
   ("dT_glob_sea", "dtemp_sea"); ("dT_NH_sea", "dtempnh_sea"); ("dT_SHsea", "dtempsh_sea");
   ("OHC700", "OHC700"); ("OHCTOT", "OHCTOT")].
(** upwelling_diffusion_model.py 643-662; [oh] is the 700 m heat content (its index may be out of range) *)
Definition ud_values (o : ud_out A) (oh : A) : dict A :=
  [("dtemp", y_dtemp o); ("dtempnh", y_nh o); ("dtempsh", y_sh o);
   ("dtemp_air", y_air o); ("dtempnh_air", y_air_n o); ("dtempsh_air", y_air_s o);
   ("dtemp_sea", y_sea o); ("dtempnh_sea", y_sea_n o); ("dtempsh_sea", y_sea_s o);
   ("RIBN", y_ribn o); ("RIBS", y_ribs o); ("RIB", y_rib o);
   ("OHC700", oh); ("OHCTOT", y_ohctot o); ("anomalous_radiation", y_anom o)].
Definition ud_thermal (p : ud_pam A) : thermal (ud_state A) :=
  {| t_names := ud_names;
     t_year := fun s i => let '(s', o) := ud_year p s i in
                          match y_ohc700 o with
                          | Some oh => Ok (s', ud_values o oh)
                          | None => Err IndexError
                          end |}.

(** ciceroscm.py 21-26 *)
Definition FORC_OUTPUT_LIST : list string :=
  ["Total_forcing"; "Solar_forcing"; "Volcanic_forcing_NH"; "Volcanic_forcing_SH"].

(** [frame.iloc[i, 0]], [frame.iloc[i, :]] on the rows of a frame *)
Definition iloc {B} (l : list B) (i : nat) : result B :=
  match nth_error l i with Some x => Ok x | None => Err IndexError end.

(** The instance: first and last year, the forcing series of a forcing run ([rf_run]), first column of
    the solar and land-use frames, rows of the volcanic frames (__init__ 108-141) *)
Inductive rf_data := RfArray (l : list A) | RfFrame (f : frame A).
Record inst := {
  d_start : Z; d_end : Z; d_rf : option rf_data;
  d_sun : list A; d_luc : list A; d_vn : list (list A); d_vs : list (list A) }.
Definition d_years (c : inst) : nat := Z.to_nat (d_end c - d_start c + 1).

Section Run.
Variables (T : Type) (th : thermal T) (c : inst).

(** 143-155: [initialise_output_arrays]; other keys stay *)
Definition init_arrays (r : results) : results :=
  fold_left (fun r k => dset r k (Arr (repeat #0 (d_years c)))) (dkeys (t_names T th) ++ FORC_OUTPUT_LIST) r.

(** 157-202: [forc_set], returning (fn, fs, forc, w_aero) *)
Definition rf_row (rf : rf_data) (yr : Z) (row : nat) : result (A * A * A * A) :=
  match rf with
  | RfArray l => do f <- iloc l row; Ok (f, f, f, #0)
  | RfFrame f =>
      do tot <- fr_get f "total" yr;
      do fn <- fr_get f "FORC_NH" yr;
      do fs <- fr_get f "FORC_SH" yr;
      do w <- (if dmem (fr_cols f) "w_aero" then fr_get f "w_aero" yr else Ok #0);
      Ok (fn, fs, tot, w)
  end.
Definition rf_forc_set (rf : rf_data) (yr : Z) : result (A * A * A * A) :=
  let row := Z.to_nat (yr - d_start c) in
  do q <- rf_row rf yr row;
  let '(fn, fs, forc, w) := q in
  do s <- iloc (d_sun c) row;
  Ok (fn + s, fs + s, forc + s, w).

(** [self.results[k][i] = v], with the value already evaluated *)
Definition put (k : string) (i : nat) (v : A) (r : results) : result results :=
  match dget r k with
  | None => Err (KeyError k)
  | Some (Fr _) => Err (KeyError k)
  | Some (Arr l) => if Nat.ltb i (List.length l) then Ok (dset r k (Arr (set_nth i v l))) else Err IndexError
  end.
(** 218-229: [add_year_data_to_output]. An exception here ends the run; the arrays of such a run are
    left as they were before the year (in python some entries of the year may already be set). *)
Definition put_outputs (values : dict A) (i : nat) (r : results) : result results :=
  fold_left (fun acc kv => do r <- acc; do v <- key (snd kv) (dget values (snd kv)); put (fst kv) i v r)
    (t_names T th) (Ok r).
Definition add_year (values : dict A) (forc : A) (i : nat) (r : results) : result results :=
  do r <- put_outputs values i r;
  do r <- put "Total_forcing" i forc r;
  do s <- iloc (d_sun c) i; do r <- put "Solar_forcing" i s r;
  do vn <- iloc (d_vn c) i; do r <- put "Volcanic_forcing_NH" i (nmean vn) r;
  do vs <- iloc (d_vs c) i; put "Volcanic_forcing_SH" i (nmean vs) r.

(** The handler as the driver sees it (its own state [H] is modelled in M_Gas and M_Forcing):
    [emi2conc(yr, feedback)], [conc2forc(yr, luc, sun)] giving (forc, fn, fs, w), and
    [add_results_to_dict(cfg, feedback_dict_series)] with the flag "carbon_cycle_outputs" in [cfg]. *)
Variables (H : Type)
  (emi2conc : H -> Z -> option (dict A) -> result H)
  (conc2forc : H -> Z -> A -> A -> result (H * (A * A * A * A)))
  (add_results : H -> bool -> dict (list A) -> result (dict (frame A))).
(** [self.feedback_list] *)
Variable feedback_list : option (list string).

(** 279-281: [{key: values.get(key, 0) for key in self.feedback_list}], or no argument *)
Definition feedback_arg (values : option (dict A)) : option (dict A) :=
  match values, feedback_list with
  | Some v, Some fl =>
      Some (dupdate [] (map (fun k => (k, match dget v k with Some x => x | None => #0 end)) fl))
  | _, _ => None
  end.

Record loop := { l_t : T; l_h : H; l_values : option (dict A); l_res : results }.

(** 276-312: one year *)
Definition driver_year (s : loop) (yr : Z) : result loop :=
  let i := Z.to_nat (yr - d_start c) in
  do hq <- match d_rf c with
           | None =>
               do h <- emi2conc (l_h s) yr (feedback_arg (l_values s));
               do luc <- iloc (d_luc c) i;
               do sun <- iloc (d_sun c) i;
               do r <- conc2forc h yr luc sun;
               let '(h', (forc, fn, fs, w)) := r in
               Ok (h', (fn, fs, forc, w))
           | Some rf => do q <- rf_forc_set rf yr; Ok (l_h s, q)
           end;
  let '(h, (fn, fs, forc, w)) := hq in
  do vn <- iloc (d_vn c) i;
  do vs <- iloc (d_vs c) i;
  do tv <- t_year T th (l_t s) {| i_w := w; i_nh := fn; i_sh := fs; i_vn := vn; i_vs := vs |};
  do r <- add_year (snd tv) forc i (l_res s);
  Ok {| l_t := fst tv; l_h := h; l_values := Some (snd tv); l_res := r |}.

(** the loop; when a year fails, the state reached so far is kept with the exception *)
Fixpoint driver_years (s : loop) (ys : list Z) {struct ys} : loop * option exn :=
  match ys with
  | [] => (s, None)
  | y :: r => match driver_year s y with
              | Ok s' => driver_years s' r
              | Err e => (s, Some e)
              end
  end.
Definition year_list : list Z := zrange (d_start c) (d_years c).

(** pub_utils.py 22-43: [get_first_key] *)
Definition get_first_key (d : dict string) (v : string) : result string :=
  match filter (fun kv => String.eqb (snd kv) v) d with
  | (k, _) :: _ => Ok k
  | [] => Err IndexError
  end.
(** ciceroscm.py 314-323: the argument [feedback_dict_series]; iterating over None is a TypeError *)
Definition arr_of (k : string) (r : results) : result (list A) :=
  match dget r k with Some (Arr l) => Ok l | _ => Err (KeyError k) end.
Definition feedback_series (r : results) : result (dict (list A)) :=
  match feedback_list with
  | None => Err TypeError
  | Some fl =>
      do kv <- mapM (fun k => do o <- get_first_key (t_names T th) k; do l <- arr_of o r; Ok (k, l)) fl;
      Ok (dupdate [] kv)
  end.

(** ** Files: name and columns *)
Definition file : Type := string * dict (list A).
(** concentrations_emissions_handler.py 923-934: one file per frame; a frame of another name is a KeyError *)
Definition short_name (k : string) : option string :=
  dget [("emissions", "em"); ("concentrations", "conc"); ("forcing", "forc"); ("carbon cycle", "carbon")] k.
Fixpoint write_frames (fs : dict (frame A)) {struct fs} : list file * option exn :=
  match fs with
  | [] => ([], None)
  | (k, f) :: r => match short_name k with
                   | None => ([], Some (KeyError k))
                   | Some n => let '(w, e) := write_frames r in ((n, fr_cols f) :: w, e)
                   end
  end.
(** 890-964 with [make_plot=False]: 957-964 writes the carbon file a second time *)
Definition write_output (h : H) (carbon : bool) (series : dict (list A)) : list file * option exn :=
  match add_results h carbon series with
  | Err e => ([], Some e)
  | Ok fs =>
      let '(w, e) := write_frames fs in
      match e with
      | Some e => (w, Some e)
      | None => if carbon then
                  match dget fs "carbon cycle" with
                  | Some f => (w ++ [("carbon", fr_cols f)], None)
                  | None => (w, Some (KeyError "carbon cycle"))
                  end
                else (w, None)
      end
  end.

(** ciceroscm.py 334-430: [write_data_to_file]; the "Year" column is left out *)
Definition list_rib : list string := ["RIB_glob"; "RIB_N"; "RIB_S"].
Definition list_temp : list string :=
  ["dT_glob"; "dT_NH"; "dT_SH"; "dT_glob_air"; "dT_NH_air"; "dT_SH_air"; "dT_glob_sea"; "dT_NH_sea"; "dT_SHsea"].
Definition columns (r : results) (ks : list string) : result (dict (list A)) :=
  mapM (fun k => do l <- arr_of k r; Ok (k, l)) ks.
Definition write_data (r : results) : list file * option exn :=
  match (do o <- columns r ["OHC700"; "OHCTOT"]; do b <- columns r list_rib; do t <- columns r list_temp;
         Ok [("ohc", o); ("rib", b); ("temp", t)]) with
  | Err e => ([], Some e)
  | Ok w =>
      match columns r ["Solar_forcing"; "Volcanic_forcing_NH"; "Volcanic_forcing_SH"] with
      | Err e => (w, Some e)
      | Ok sv =>
          let w := w ++ [("sunvolc", sv)] in
          match d_rf c with
          | None => (w, None)
          | Some _ => match columns r ["Total_forcing"] with
                      | Err e => (w, Some e)
                      | Ok t => (w ++ [("forc", t)], None)
                      end
          end
      end
  end.

(** 231-332 without plots. [t0] is the freshly constructed thermal model, [h0] the handler after
    [reset_with_new_pams]; [as_dict] and [carbon] are the entries "results_as_dict" and
    "carbon_cycle_outputs" of the run's [cfg]. *)
Record outcome := { o_results : results; o_handler : H; o_files : list file; o_exn : option exn }.
Definition run_years (t0 : T) (h0 : H) (r : results) : loop * option exn :=
  driver_years {| l_t := t0; l_h := h0; l_values := None; l_res := init_arrays r |} year_list.
Definition run (t0 : T) (h0 : H) (as_dict carbon : bool) (r : results) : outcome :=
  let '(s, e) := run_years t0 h0 r in
  let stop r w e := {| o_results := r; o_handler := l_h s; o_files := w; o_exn := e |} in
  match e with
  | Some e => stop (l_res s) [] (Some e)
  | None =>
      match d_rf c with
      | Some _ =>
          if as_dict then stop (l_res s) [] None
          else let '(w, e) := write_data (l_res s) in stop (l_res s) w e
      | None =>
          match feedback_series (l_res s) with
          | Err e => stop (l_res s) [] (Some e)
          | Ok series =>
              if as_dict then
                match add_results (l_h s) carbon series with
                | Err e => stop (l_res s) [] (Some e)
                | Ok fs => stop (dupdate (l_res s) (map (fun kv => (fst kv, Fr (snd kv))) fs)) [] None
                end
              else
                let '(w, e) := write_output (l_h s) carbon series in
                match e with
                | Some e => stop (l_res s) w (Some e)
                | None => let '(w', e') := write_data (l_res s) in stop (l_res s) (w ++ w') e'
                end
          end
      end
  end.
End Run.
End Driver.
Arguments rval A : clear implicits.
Arguments results A : clear implicits.
Arguments rf_data A : clear implicits.
Arguments inst A : clear implicits.
Arguments thermal A T : clear implicits.
Arguments t_names {A T}. Arguments t_year {A T}. Arguments Build_thermal {A T}.
Arguments outcome A H : clear implicits.
Arguments o_results {A H}. Arguments o_handler {A H}. Arguments o_files {A H}. Arguments o_exn {A H}.
Arguments loop A T H : clear implicits.
Arguments l_t {A T H}. Arguments l_h {A T H}. Arguments l_values {A T H}. Arguments l_res {A T H}.
Arguments Build_loop {A T H}.
