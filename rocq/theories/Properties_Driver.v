(** * Properties_Driver: the yearly loop, results and files (C51-C54, C78) *)
From Verif Require Import PyBase PyBaseFacts Num M_Gas M_TwoLayer M_UDM M_Forcing M_Driver Spec_Driver
  P_Driver P_Driver2 P_Driver3 P_Driver4.

(** For the examples: three years 2000-2002 with forcing 1, 2, 4 (as array) or a table with an aerosol
    weight, solar forcing 1/2, 0, 1; a thermal model that adds up the northern forcing. *)
Definition dx_inst (rf : option (rf_data Q)) (last : Z) : inst Q :=
  {| d_start := 2000; d_end := last; d_rf := rf; d_sun := [1 / 2; 0; 1; 7]%Q; d_luc := [0; 0; 0; 0]%Q;
     d_vn := [[0; 2]; [0; 0]; [1; 1]; [0; 0]]%Q; d_vs := [[0; 0]; [0; 4]; [1; 1]; [0; 0]]%Q |}.
Definition dx_array : rf_data Q := RfArray [1; 2; 4; 8]%Q.
Definition dx_frame : rf_data Q := RfFrame {| fr_index := [2001; 2000; 2002]%Z;
  fr_cols := [("total", [20; 10; 40]%Q); ("FORC_NH", [22; 11; 44]%Q); ("FORC_SH", [18; 9; 36]%Q); ("w_aero", [1 / 2; 0; 1 / 4]%Q)] |}.
Definition dx_sum : thermal Q Q :=
  {| t_names := [("dT_glob", "dtemp"); ("dT_w", "w")];
     t_year := fun s i => let t := Qred (s + i_nh i) in Ok (t, [("dtemp", t); ("w", i_w i); ("hidden", 5%Q)]) |}.
(** a handler without state: its forcing repeats the feedback it was given *)
Definition dx_emi2conc (h : option Q) (y : Z) (fb : option (dict Q)) : result (option Q) :=
  Ok match fb with Some d => dget d "dtemp" | None => None end.
Definition dx_conc2forc (h : option Q) (y : Z) (luc sun : Q) : result (option Q * (Q * Q * Q * Q)) :=
  let f := match h with Some x => Qred (x / 2) | None => 3%Q end in Ok (h, (f, f, f, 0%Q)).
Definition dx_add_results (h : option Q) (carbon : bool) (series : dict (list Q)) : result (dict (frame Q)) :=
  Ok (("forcing", {| fr_index := []; fr_cols := [("CO2", [1%Q])] |}) ::
      if carbon then [("carbon cycle", {| fr_index := []; fr_cols := series |})] else []).
Definition dx_run {T} (th : thermal Q T) rf last fl t0 as_dict carbon r :=
  run (N := QNum) T th (dx_inst rf last) (option Q) dx_emi2conc dx_conc2forc dx_add_results fl t0 None as_dict carbon r.
Definition dx_arrays (o : outcome Q (option Q)) : option exn * list (string * list Q) :=
  (o_exn o, flat_map (fun kv => match snd kv with Arr l => [(fst kv, l)] | Fr _ => [] end) (o_results o)).

(** ** C51 *)
(** A forcing run completes exactly if every year has its inputs and the thermal model returns the
    values its output dictionary names; then every array has one entry per year, each depending on
    that year's thermal output and inputs only. *)
Theorem C51_forcing_run : forall (A : Type) (N : Num A) T (th : thermal A T) H e2c c2f add fl c rf t0 h0 carbon r,
  distinct_outputs (t_names th) -> d_rf c = Some rf ->
  let out := run T th c H e2c c2f add fl t0 h0 true carbon r in
  (o_exn out = None <->
   exists tr, List.length tr = d_years c /\ forced th c rf 0 t0 tr /\
     forall n v f o, nth_error tr n = Some (v, f) -> In o (output_names (t_names th)) -> cell (t_names th) c o n v f <> None) /\
  (o_exn out = None -> forall tr, List.length tr = d_years c -> forced th c rf 0 t0 tr -> complete (t_names th) c tr (o_results out)).
Proof. intros A N T th H e2c c2f add fl c rf t0 h0 carbon r DO R. exact (forcing_run th DO e2c c2f add fl c rf t0 h0 carbon r R). Qed.
Print Assumptions C51_forcing_run.
(** Two runs whose inputs agree up to row [n] agree in all outputs up to row [n]. *)
Theorem C51_causal : forall (A : Type) (N : Num A) T (th : thermal A T) H e2c c2f add fl c c' rf rf' t0 h0 h0' carbon carbon' r r' n,
  distinct_outputs (t_names th) -> d_rf c = Some rf -> d_rf c' = Some rf' -> same_inputs c c' rf rf' n ->
  (n < d_years c)%nat -> (n < d_years c')%nat ->
  let out := run T th c H e2c c2f add fl t0 h0 true carbon r in
  let out' := run T th c' H e2c c2f add fl t0 h0' true carbon' r' in
  o_exn out = None -> o_exn out' = None ->
  forall o, In o (output_names (t_names th)) -> exists col col',
    dget (o_results out) o = Some (Arr col) /\ List.length col = d_years c /\
    dget (o_results out') o = Some (Arr col') /\ List.length col' = d_years c' /\
    forall m, (m <= n)%nat -> nth_error col m = nth_error col' m.
Proof. intros A N T th H e2c c2f add fl c c' rf rf' t0 h0 h0' cb cb' r r' n DO. exact (c51_causal th DO e2c c2f add fl c c' rf rf' t0 h0 h0' cb cb' r r' n). Qed.
Print Assumptions C51_causal.
(** A later last year changes no earlier entry. *)
Theorem C51_prefix_stable : forall (A : Type) (N : Num A) T (th : thermal A T) H e2c c2f add fl c last rf t0 h0 h0' carbon r r' n,
  distinct_outputs (t_names th) -> d_rf c = Some rf -> (n < d_years c)%nat ->
  let c' := {| d_start := d_start c; d_end := last; d_rf := d_rf c; d_sun := d_sun c; d_luc := d_luc c; d_vn := d_vn c; d_vs := d_vs c |} in
  (n < d_years c')%nat ->
  let out := run T th c H e2c c2f add fl t0 h0 true carbon r in
  let out' := run T th c' H e2c c2f add fl t0 h0' true carbon r' in
  o_exn out = None -> o_exn out' = None ->
  forall o, In o (output_names (t_names th)) -> exists col col',
    dget (o_results out) o = Some (Arr col) /\ dget (o_results out') o = Some (Arr col') /\ nth_error col n = nth_error col' n.
Proof.
  intros A N T th H e2c c2f add fl c last rf t0 h0 h0' cb r r' n DO R L c' L' out out' E E' o I.
  destruct (c51_causal th DO e2c c2f add fl c c' rf rf t0 h0 h0' cb cb r r' n R R (fun m _ => conj (fun _ _ _ _ => iff_refl _) (conj eq_refl (conj eq_refl eq_refl))) L L' E E' o I)
    as (col & col' & X1 & _ & X2 & _ & X3).
  exact (ex_intro _ col (ex_intro _ col' (conj X1 (conj X2 (X3 n (Nat.le_refl n)))))).
Qed.
Print Assumptions C51_prefix_stable.
(** The arrays of the two thermal models are their yearly outputs under the inputs given forcing plus solar forcing. *)
Theorem C51_two_layer : forall (A : Type) (N : Num A) H e2c c2f add fl p c rf h0 carbon r,
  let out := run (tl_state A) (tl_thermal p) c H e2c c2f add fl (tl_init p) h0 true carbon r in
  d_rf c = Some rf -> o_exn out = None -> exists ins totals,
    List.length ins = d_years c /\ List.length totals = d_years c /\
    (forall n i f, nth_error ins n = Some i -> nth_error totals n = Some f -> year_input c rf n i f) /\
    (forall o g, In (o, g) tl_columns -> dget (o_results out) o = Some (Arr (map g (tl_run p (tl_init p) ins)))) /\
    dget (o_results out) "Total_forcing" = Some (Arr totals) /\
    dget (o_results out) "Solar_forcing" = Some (Arr (firstn (d_years c) (d_sun c))) /\
    dget (o_results out) "Volcanic_forcing_NH" = Some (Arr (map nmean (firstn (d_years c) (d_vn c)))) /\
    dget (o_results out) "Volcanic_forcing_SH" = Some (Arr (map nmean (firstn (d_years c) (d_vs c)))).
Proof. exact @c51_two_layer. Qed.
Print Assumptions C51_two_layer.
Theorem C51_two_layer_completes : forall (A : Type) (N : Num A) H e2c c2f add fl p c rf h0 carbon r, d_rf c = Some rf ->
  o_exn (run (tl_state A) (tl_thermal p) c H e2c c2f add fl (tl_init p) h0 true carbon r) = None <->
  forall n, (n < d_years c)%nat -> exists i f, year_input c rf n i f.
Proof. exact @c51_two_layer_total. Qed.
Print Assumptions C51_two_layer_completes.
Theorem C51_upwelling_diffusion : forall (A : Type) (N : Num A) H e2c c2f add fl p c rf h0 carbon r,
  let out := run (ud_state A) (ud_thermal p) c H e2c c2f add fl (ud_init p) h0 true carbon r in
  d_rf c = Some rf -> o_exn out = None -> exists ins totals ohc,
    List.length ins = d_years c /\ List.length totals = d_years c /\
    (forall n i f, nth_error ins n = Some i -> nth_error totals n = Some f -> year_input c rf n i f) /\
    (forall o g, In (o, g) ud_columns -> dget (o_results out) o = Some (Arr (map g (ud_run p (ud_init p) ins)))) /\
    dget (o_results out) "OHC700" = Some (Arr ohc) /\ map y_ohc700 (ud_run p (ud_init p) ins) = map Some ohc /\
    dget (o_results out) "Total_forcing" = Some (Arr totals) /\
    dget (o_results out) "Solar_forcing" = Some (Arr (firstn (d_years c) (d_sun c))) /\
    dget (o_results out) "Volcanic_forcing_NH" = Some (Arr (map nmean (firstn (d_years c) (d_vn c)))) /\
    dget (o_results out) "Volcanic_forcing_SH" = Some (Arr (map nmean (firstn (d_years c) (d_vs c)))).
Proof. exact @c51_udm. Qed.
Print Assumptions C51_upwelling_diffusion.

Example C51_example : dx_arrays (dx_run dx_sum (Some dx_array) 2002 None 0%Q true false []) =
  (None, [("dT_glob", [3 / 2; 7 / 2; 17 / 2]); ("dT_w", [0; 0; 0]); ("Total_forcing", [3 / 2; 2; 5]);
          ("Solar_forcing", [1 / 2; 0; 1]); ("Volcanic_forcing_NH", [1; 0; 1]); ("Volcanic_forcing_SH", [0; 2; 1])]%Q).
Proof. vm_compute. reflexivity. Qed.
(** the table is read by year, whatever the order of its rows *)
Example C51_example_table : dx_arrays (dx_run dx_sum (Some dx_frame) 2002 None 0%Q true false []) =
  (None, [("dT_glob", [23 / 2; 67 / 2; 157 / 2]); ("dT_w", [0; 1 / 2; 1 / 4]); ("Total_forcing", [21 / 2; 20; 41]);
          ("Solar_forcing", [1 / 2; 0; 1]); ("Volcanic_forcing_NH", [1; 0; 1]); ("Volcanic_forcing_SH", [0; 2; 1])]%Q).
Proof. vm_compute. reflexivity. Qed.
Example C51_example_missing_year : fst (dx_arrays (dx_run dx_sum (Some dx_frame) 2003 None 0%Q true false [])) = Some (KeyError "year") /\
  fst (dx_arrays (dx_run dx_sum (Some dx_array) 2004 None 0%Q true false [])) = Some IndexError.
Proof. split; vm_compute; reflexivity. Qed.
Definition dx_tl : tl_pam Q := {| tl_lambda := 1; tl_mixed := 1; tl_deep := 1; tl_k := 0; tl_eff := 1; tl_foan := 0; tl_foas := 0; tl_delta := 1 |}%Q.
(** with no ocean in the average the surface temperature is forcing over feedback: (20 + 2)/(1 + 1/2), (41 + 2)/(1 + 1/4) *)
Example C51_example_two_layer :
  let out := dx_run (tl_thermal (N := QNum) dx_tl) (Some dx_frame) 2002 None (tl_init (N := QNum) dx_tl) true false [] in
  (o_exn out, dget (o_results out) "dT_glob", dget (o_results out) "Total_forcing", dget (o_results out) "nothing") =
  (None, Some (Arr [23 / 2; 44 / 3; 172 / 5]%Q), Some (Arr [21 / 2; 20; 41]%Q), None).
Proof. vm_compute. reflexivity. Qed.

(** ** C52 *)
(** With a handler that logs the feedback argument of each year: nothing in the first year, later the
    value of last year's output of that name. *)
Theorem C52_last_years_output : forall (A : Type) (N : Num A) T (th : thermal A T) H e2c c2f c keys t0 h0 r s,
  distinct_outputs (t_names th) -> d_rf c = None -> NoDup keys ->
  run_years T th c (H * log A) (logging e2c) (logging2 c2f) (Some keys) t0 (h0, []) r = (s, None) ->
  List.length (snd (l_h s)) = d_years c /\
  ((0 < d_years c)%nat -> nth_error (snd (l_h s)) 0 = Some (d_start c, None)) /\
  (forall n, (S n < d_years c)%nat -> exists fb,
     nth_error (snd (l_h s)) (S n) = Some ((d_start c + Z.of_nat (S n))%Z, Some fb) /\ dkeys fb = keys /\
     forall k o col, In k keys -> dget (t_names th) o = Some k -> dget (l_res s) o = Some (Arr col) -> dget fb k = nth_error col n).
Proof. intros A N T th H e2c c2f c keys t0 h0 r s DO. exact (c52_lag th DO e2c c2f c keys t0 h0 r s). Qed.
Print Assumptions C52_last_years_output.
(** For the feedback list of both carbon cycles and both thermal models: the log is the temperature
    array of the run, shifted by one year. *)
Theorem C52_temperature : forall (A : Type) (N : Num A) H e2c c2f c h0 r,
  d_rf c = None ->
  (forall p s, run_years (tl_state A) (tl_thermal p) c (H * log A) (logging e2c) (logging2 c2f) (Some ["dtemp"]) (tl_init p) (h0, []) r = (s, None) ->
   exists col, dget (l_res s) "dT_glob" = Some (Arr col) /\ List.length col = d_years c /\ snd (l_h s) = lagged (d_start c) col) /\
  (forall p s, run_years (ud_state A) (ud_thermal p) c (H * log A) (logging e2c) (logging2 c2f) (Some ["dtemp"]) (ud_init p) (h0, []) r = (s, None) ->
   exists col, dget (l_res s) "dT_glob" = Some (Arr col) /\ List.length col = d_years c /\ snd (l_h s) = lagged (d_start c) col).
Proof.
  intros A N H e2c c2f c h0 r R. split; intros p s.
  - exact (c52_temperature (tl_thermal p) tl_distinct e2c c2f c (tl_init p) h0 r s R eq_refl).
  - exact (c52_temperature (ud_thermal p) ud_distinct e2c c2f c (ud_init p) h0 r s R eq_refl).
Qed.
Print Assumptions C52_temperature.
(** Logging changes nothing else. *)
Theorem C52_log_neutral : forall (A : Type) (N : Num A) T (th : thermal A T) H e2c c2f c fl t0 h0 r,
  run_years T th c H e2c c2f fl t0 h0 r =
  let '(x, e) := run_years T th c (H * log A) (logging e2c) (logging2 c2f) fl t0 (h0, []) r in
  ({| l_t := l_t x; l_h := fst (l_h x); l_values := l_values x; l_res := l_res x |}, e).
Proof. exact @c52_log_neutral. Qed.
Print Assumptions C52_log_neutral.
(** The carbon cycle outputs are asked for with the unshifted temperature array. *)
Theorem C52_outputs_use_same_year : forall (A : Type) (N : Num A) T (th : thermal A T) H e2c c2f add c t0 h0 carbon r s,
  distinct_outputs (t_names th) -> d_rf c = None -> get_first_key (t_names th) "dtemp" = Ok "dT_glob" ->
  run_years T th c H e2c c2f (Some ["dtemp"]) t0 h0 r = (s, None) ->
  exists col, dget (l_res s) "dT_glob" = Some (Arr col) /\
  match add (l_h s) carbon [("dtemp", col)] with
  | Ok fs => let o := run T th c H e2c c2f add (Some ["dtemp"]) t0 h0 true carbon r in
             o_exn o = None /\ (wf fs -> forall k, dget (o_results o) k = match dget fs k with Some f => Some (Fr f) | None => dget (l_res s) k end)
  | Err e => o_exn (run T th c H e2c c2f add (Some ["dtemp"]) t0 h0 true carbon r) = Some e
  end.
Proof. intros A N T th H e2c c2f add c t0 h0 cb r s DO. exact (c52_same_year th DO e2c c2f add c t0 h0 cb r s). Qed.
Print Assumptions C52_outputs_use_same_year.

(** forcing 3, then half of last year's temperature *)
Example C52_example :
  let '(s, e) := run_years (N := QNum) Q dx_sum (dx_inst None 2002) (option Q * log Q) (logging dx_emi2conc) (logging2 dx_conc2forc)
                   (Some ["dtemp"]) 0%Q (None, []) [] in
  (e, dget (l_res s) "dT_glob", snd (l_h s)) =
  (None, Some (Arr [3; 9 / 2; 27 / 4]%Q), [(2000%Z, None); (2001%Z, Some [("dtemp", 3%Q)]); (2002%Z, Some [("dtemp", 9 / 2)%Q])]) /\
  lagged 2000 [3; 9 / 2; 27 / 4]%Q = snd (l_h s).
Proof. vm_compute. split; reflexivity. Qed.
Example C52_models : get_first_key tl_names "dtemp" = Ok "dT_glob" /\ get_first_key ud_names "dtemp" = Ok "dT_glob".
Proof. split; reflexivity. Qed.

(** ** C53 *)
(** In a forcing run the arrays and the outcome do not depend on what earlier runs left in [results];
    other keys stay as they were. *)
Theorem C53_rerun : forall (A : Type) (N : Num A) T (th : thermal A T) H e2c c2f add fl c rf t0 h0 h0' as_dict carbon carbon' r r',
  distinct_outputs (t_names th) -> d_rf c = Some rf ->
  (forall o, In o (output_names (t_names th)) ->
     dget (o_results (run T th c H e2c c2f add fl t0 h0 as_dict carbon r)) o = dget (o_results (run T th c H e2c c2f add fl t0 h0 as_dict carbon' r')) o) /\
  o_exn (run T th c H e2c c2f add fl t0 h0 true carbon r) = o_exn (run T th c H e2c c2f add fl t0 h0 true carbon' r') /\
  (forall k, ~ In k (output_names (t_names th)) -> dget (o_results (run T th c H e2c c2f add fl t0 h0' as_dict carbon r)) k = dget r k).
Proof. intros A N T th H e2c c2f add fl c rf t0 h0 h0' d cb cb' r r' DO. exact (c53_forcing th DO e2c c2f add fl c rf t0 h0 h0' d cb cb' r r'). Qed.
Print Assumptions C53_rerun.
(** In an emission run delivered as a dictionary, every frame of an earlier run that the new run does not produce stays. *)
Theorem C53_stale_frames : forall (A : Type) (N : Num A) T (th : thermal A T) H e2c c2f add c t0 h0 carbon r s fs col,
  distinct_outputs (t_names th) -> d_rf c = None -> get_first_key (t_names th) "dtemp" = Ok "dT_glob" ->
  run_years T th c H e2c c2f (Some ["dtemp"]) t0 h0 r = (s, None) -> dget (l_res s) "dT_glob" = Some (Arr col) ->
  add (l_h s) carbon [("dtemp", col)] = Ok fs -> wf fs ->
  let o := run T th c H e2c c2f add (Some ["dtemp"]) t0 h0 true carbon r in
  forall k, ~ In k (output_names (t_names th)) -> dget fs k = None -> dget (o_results o) k = dget r k.
Proof. intros A N T th H e2c c2f add c t0 h0 cb r s fs col DO. exact (c53_stale th DO e2c c2f add c t0 h0 cb r s fs col). Qed.
Print Assumptions C53_stale_frames.

(** a run with carbon cycle outputs, then one without: the old frame is still there *)
Example C53_example :
  let first := o_results (dx_run dx_sum None 2001 (Some ["dtemp"]) 0%Q true true []) in
  let second := o_results (dx_run dx_sum None 2002 (Some ["dtemp"]) 1%Q true false first) in
  (dget second "carbon cycle", dget second "dT_glob") =
  (Some (Fr {| fr_index := []; fr_cols := [("dtemp", [3; 9 / 2]%Q)] |}), Some (Arr [4; 6; 9]%Q)).
Proof. vm_compute. reflexivity. Qed.

(** ** C54 *)
Theorem C54_file_columns : forall (A : Type) (c : inst A) (r : results A),
  (snd (write_data c r) = None <-> forall k, In k (file_columns (rf_run c)) -> has_array r k) /\
  (snd (write_data c r) = None ->
     map fst (fst (write_data c r)) = ["ohc"; "rib"; "temp"; "sunvolc"] ++ (if rf_run c then ["forc"] else []) /\
     flat_map (fun f => dkeys (snd f)) (fst (write_data c r)) = file_columns (rf_run c)) /\
  (forall e, snd (write_data c r) = Some e -> exists k, In k (file_columns (rf_run c)) /\ ~ has_array r k /\ e = KeyError k).
Proof. exact @c54_write. Qed.
Print Assumptions C54_file_columns.
Theorem C54_upwelling_diffusion : forall (A : Type) (N : Num A) H e2c c2f fl p c t0 h0 r s,
  run_years (ud_state A) (ud_thermal p) c H e2c c2f fl t0 h0 r = (s, None) -> snd (write_data c (l_res s)) = None.
Proof. exact @c54_udm. Qed.
Print Assumptions C54_upwelling_diffusion.
(** The two-layer model: the completed run ends in KeyError; an emission run has already written the handler's files. *)
Theorem C54_two_layer : forall (A : Type) (N : Num A) H e2c c2f add p c t0 h0 carbon r s, dget r "RIB_N" = None ->
  run_years (tl_state A) (tl_thermal p) c H e2c c2f (Some ["dtemp"]) t0 h0 r = (s, None) ->
  let o := run (tl_state A) (tl_thermal p) c H e2c c2f add (Some ["dtemp"]) t0 h0 false carbon r in
  match d_rf c with
  | Some _ => o_exn o = Some (KeyError "RIB_N") /\ o_files o = []
  | None => exists col, dget (l_res s) "dT_glob" = Some (Arr col) /\
      let '(w, e) := write_output H add (l_h s) carbon [("dtemp", col)] in
      o_files o = w /\ o_exn o = match e with Some e => Some e | None => Some (KeyError "RIB_N") end
  end.
Proof. exact @c54_two_layer. Qed.
Print Assumptions C54_two_layer.

Example C54_example :
  let o := dx_run (tl_thermal (N := QNum) dx_tl) None 2001 (Some ["dtemp"]) (tl_init (N := QNum) dx_tl) false true [] in
  (o_exn o, o_files o) =
  (Some (KeyError "RIB_N"), [("forc", [("CO2", [1%Q])]); ("carbon", [("dtemp", [4; 4]%Q)]); ("carbon", [("dtemp", [4; 4]%Q)])]).
Proof. vm_compute. reflexivity. Qed.
Example C54_example_complete :
  let r := map (fun k => (k, Arr [1%Q])) (file_columns true) in
  (snd (write_data (dx_inst (Some dx_array) 2000) r), map fst (fst (write_data (dx_inst (Some dx_array) 2000) r)), snd (write_data (dx_inst None 2000) (tl r)), map fst (fst (write_data (dx_inst None 2000) r))) =
  (None, ["ohc"; "rib"; "temp"; "sunvolc"; "forc"], Some (KeyError "OHC700"), ["ohc"; "rib"; "temp"; "sunvolc"]).
Proof. vm_compute. reflexivity. Qed.

(** ** C78 *)
(** [None], documented as the answer of a carbon cycle without feedback variables, and a variable
    that is not an output of the thermal model: the years are run, then the results are lost in an exception. *)
Theorem C78_no_feedback_list : forall (A : Type) (N : Num A) T (th : thermal A T) H e2c c2f add c t0 h0 as_dict carbon r s,
  d_rf c = None -> run_years T th c H e2c c2f None t0 h0 r = (s, None) ->
  run T th c H e2c c2f add None t0 h0 as_dict carbon r = {| o_results := l_res s; o_handler := l_h s; o_files := []; o_exn := Some TypeError |}.
Proof. exact @c78_none. Qed.
Print Assumptions C78_no_feedback_list.
Theorem C78_unknown_variable : forall (A : Type) (N : Num A) T (th : thermal A T) H e2c c2f add c keys key t0 h0 as_dict carbon r s,
  distinct_outputs (t_names th) -> d_rf c = None -> run_years T th c H e2c c2f (Some keys) t0 h0 r = (s, None) ->
  In key keys -> (forall o, ~ In (o, key) (t_names th)) ->
  run T th c H e2c c2f add (Some keys) t0 h0 as_dict carbon r = {| o_results := l_res s; o_handler := l_h s; o_files := []; o_exn := Some IndexError |}.
Proof. intros A N T th H e2c c2f add c keys key t0 h0 d cb r s DO. exact (c78_unknown th DO e2c c2f add c keys key t0 h0 d cb r s). Qed.
Print Assumptions C78_unknown_variable.
Theorem C78_known_variables : forall (A : Type) (N : Num A) T (th : thermal A T) H e2c c2f add c keys t0 h0 carbon r s,
  distinct_outputs (t_names th) -> d_rf c = None -> NoDup keys -> run_years T th c H e2c c2f (Some keys) t0 h0 r = (s, None) ->
  (forall k, In k keys -> exists o, In (o, k) (t_names th)) ->
  exists series, dkeys series = keys /\
    (forall k, In k keys -> exists o col, In (o, k) (t_names th) /\ dget (l_res s) o = Some (Arr col) /\ dget series k = Some col) /\
    o_exn (run T th c H e2c c2f add (Some keys) t0 h0 true carbon r) = match add (l_h s) carbon series with Ok _ => None | Err e => Some e end.
Proof. intros A N T th H e2c c2f add c keys t0 h0 cb r s DO. exact (c78_known th DO e2c c2f add c keys t0 h0 cb r s). Qed.
Print Assumptions C78_known_variables.
(** A variable that the thermal model does not return at all is silently passed as 0. *)
Theorem C78_missing_is_zero : forall (A : Type) (N : Num A) T (th : thermal A T) H e2c c2f c keys t0 h0 r s,
  distinct_outputs (t_names th) -> d_rf c = None -> NoDup keys ->
  run_years T th c (H * log A) (logging e2c) (logging2 c2f) (Some keys) t0 (h0, []) r = (s, None) ->
  forall k, In k keys -> (forall t i t' v, t_year th t i = Ok (t', v) -> dget v k = None) ->
  forall n fb, nth_error (snd (l_h s)) (S n) = Some ((d_start c + Z.of_nat (S n))%Z, Some fb) -> dget fb k = Some (nofZ 0).
Proof. intros A N T th H e2c c2f c keys t0 h0 r s DO. exact (c78_zero th DO e2c c2f c keys t0 h0 r s). Qed.
Print Assumptions C78_missing_is_zero.

(** "dtemp_sea" is returned by the two-layer model each year but is not an output name. *)
Example C78_example :
  o_exn (dx_run (tl_thermal (N := QNum) dx_tl) None 2001 (Some ["dtemp"; "dtemp_sea"]) (tl_init (N := QNum) dx_tl) true false []) = Some IndexError /\
  o_exn (dx_run dx_sum None 2002 None 0%Q false true []) = Some TypeError /\
  (forall o, ~ In (o, "dtemp_sea") tl_names) /\ dmem (tl_values {| o_dtemp := 1; o_fast := 1; o_slow := 1; o_RIB := 1; o_OHCTOT := 1; o_OHC_MIXED := 1; o_OHC_DEEP := 1; o_sea := 1; o_OHC700 := 1 |}%Q) "dtemp_sea" = true.
Proof.
  split; [vm_compute; reflexivity|]. split; [vm_compute; reflexivity|]. split; [|reflexivity].
  intros o I. cbn in I. repeat (destruct I as [I|I]; [discriminate|]). destruct I.
Qed.
