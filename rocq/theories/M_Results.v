(** * M_Results: the result frames of the handler and the handler as the driver uses it,
      /repo/src/ciceroscm/concentrations_emissions_handler.py 966-1083,
      carbon_cycle/carbon_cycle_mod.py 795-865, carbon_cycle_abstract.py 143-155 *)
From Verif Require Import PyBase Num M_Gas M_Forcing M_Carbon M_CarbonBack M_Driver.

Definition zlist_eqb (a b : list Z) : bool := if list_eq_dec Z.eq_dec a b then true else false.

(** ** Pandas operations on frames *)
Section Frames.
Context {A : Type}.
(** [pd.DataFrame(data=cols, index=ix)] with arrays *)
Definition make_frame (ix : list Z) (cols : dict (list A)) : result (frame A) :=
  if forallb (fun kv => Nat.eqb (List.length (snd kv)) (List.length ix)) cols then Ok (Build_frame ix cols) else Err ValueError.
(** [df[c] = v] with an array *)
Definition set_col (f : frame A) (c : string) (v : list A) : result (frame A) :=
  if Nat.eqb (List.length v) (List.length (fr_index f)) then Ok (Build_frame (fr_index f) (dset (fr_cols f) c v)) else Err ValueError.
(** [pd.concat([f, g], axis=1)] of frames with the same labels. With different labels pandas joins them and fills
    up with NaN; that case is not covered (ValueError stands for it). *)
Definition concat_cols (f g : frame A) : result (frame A) :=
  if zlist_eqb (fr_index f) (fr_index g) then Ok (Build_frame (fr_index f) (fr_cols f ++ fr_cols g)) else Err ValueError.
(** [df.drop(columns=cs)] *)
Definition drop_cols (f : frame A) (cs : list string) : result (frame A) :=
  match find (fun c => negb (dmem (fr_cols f) c)) cs with
  | Some c => Err (KeyError c)
  | None => Ok (Build_frame (fr_index f) (filter (fun kv => negb (smem (fst kv) cs)) (fr_cols f)))
  end.
(** [df.drop(labels=ys, axis=0)] *)
Definition zmem (y : Z) (ys : list Z) : bool := existsb (Z.eqb y) ys.
Definition drop_rows (f : frame A) (ys : list Z) : result (frame A) :=
  if forallb (fun y => zmem y (fr_index f)) ys then
    let keep {B} (l : list B) := map snd (filter (fun yv => negb (zmem (fst yv) ys)) (combine (fr_index f) l)) in
    Ok (Build_frame (keep (fr_index f)) (map (fun kv => (fst kv, keep (snd kv))) (fr_cols f)))
  else Err (KeyError YEAR).
(** [df[cs]]: all columns of each name *)
Definition select (f : frame A) (cs : list string) : result (frame A) :=
  do cols <- mapM (fun c => if dmem (fr_cols f) c then Ok (filter (fun kv => String.eqb (fst kv) c) (fr_cols f)) else Err (KeyError c)) cs;
  Ok (Build_frame (fr_index f) (List.concat cols)).
(** [cols[-n:] + cols[:-n]] *)
Definition rotate {B} (n : Z) (l : list B) : list B :=
  pyslice l (- n) (Z.of_nat (List.length l)) ++ pyslice l 0 (- n).
(** [df.rename(columns={old: new})] *)
Definition rename_col (old new : string) (f : frame A) : frame A :=
  Build_frame (fr_index f) (map (fun kv => (if String.eqb (fst kv) old then new else fst kv, snd kv)) (fr_cols f)).
End Frames.

Section Results.
Context {A : Type} {N : Num A}.
Local Open Scope num_scope.
(** NaN; no arithmetic is done with it here *)
Variable nan : A.

Definition year_column (p : hpam A) : list A := map (fun y => nofZ y) (years_of p).

(** concentrations_emissions_handler.py 241-243: [precalc_erf] with its column TOT_vanilla *)
Definition with_tot_vanilla (erf : frame A) : frame A :=
  Build_frame (fr_index erf)
    (dset (fr_cols erf) "TOT_vanilla"
       (tab (List.length (fr_index erf)) (fun i => nsum (map (fun kv => nth i (snd kv) #0) (fr_cols erf))))).
(** concentrations_emissions_handler.py 988-997 *)
Definition forcing_frame (p : hpam A) (st : hst A) (erf : frame A) : result (frame A) :=
  do f <- make_frame (years_of p) (s_forc st);
  do f <- set_col f "Year" (year_column p);
  do f <- concat_cols f (with_tot_vanilla erf);
  do f <- drop_cols f ["TOT_vanilla"];
  do f <- select f (rotate 1 (dkeys (fr_cols f)));
  Ok (rename_col "SO2" "SO4_DIR" f).

(** [np.arange(a, b)] *)
Definition arange (a b : Z) : list Z := zrange a (Z.to_nat (b - a)).
Definition zlast (l : list Z) : result Z := match rev l with y :: _ => Ok y | [] => Err IndexError end.
(** concentrations_emissions_handler.py 998-1005; the sum of 1002 is aligned by label (labels are distinct) *)
Definition emission_frame (p : hpam A) (emis : frame A) : result (frame A) :=
  do f <- drop_cols emis ["CO2_FF"; "CO2_AFOLU"];
  do last <- zlast (years_of p);
  do elast <- zlast (fr_index emis);
  do f <- drop_rows f (arange (last + 1) (elast + 1));
  do f <- set_col f "Year" (year_column p);
  do co2 <- mapM (fun y => do ff <- fr_get emis "CO2_FF" y; do af <- fr_get emis "CO2_AFOLU" y; Ok (ff + af)) (fr_index f);
  do f <- set_col f "CO2" co2;
  select f (rotate 2 (dkeys (fr_cols f))).

(** concentrations_emissions_handler.py 1006-1017; [self.conc] keeps the entry "Year" until the next reset *)
Definition concentration_frame (p : hpam A) (st : hst A) (pc : frame A) : result (frame A) :=
  let series d := map (fun y => match yget d y with Some v => v | None => nan end) (years_of p) in
  do f <- make_frame (years_of p) (dset (map (fun kv => (fst kv, series (snd kv))) (s_conc st)) "Year" (year_column p));
  do f <- concat_cols f pc;
  let cols := rotate 1 (dkeys (fr_cols f)) in
  do f <- select f cols;
  select f ("Year" :: filter (fun k => smem k cols) (dkeys (s_gas st))).

(** ** The carbon cycle frame *)
Variable cp : cc_pam A.
Definition airborne (em conc : list A) : list A :=
  match airborne_fraction em conc (preind cp) with Some l => l | None => map (fun _ => nan) em end.
(** carbon_cycle_mod.py 795-865 with a concentration series and a feedback dictionary; "dtemp" missing in it is
    a TypeError. Concentration and temperature series are taken to be equally long. *)
Definition carbon_output (cc : cc_state A) (yrs : list Z) (crun : bool) (conc : list A) (series : dict (list A))
  : result (cc_state A * frame A) :=
  do dt <- match dget series "dtemp" with Some d => Ok d | None => Err TypeError end;
  let '(cc', ems) := if crun then let '(h, l) := back_calculate cp cc (combine conc dt) in (h, map fst l) else (cc, []) in
  let ffer := if crun then ffer_series_conc cp conc dt else ffer_series cp (h_d cc') in
  do f <- make_frame yrs
    [("Biosphere carbon flux", biosphere_flux cp ffer); ("Ocean carbon flux", ocean_flux cp cc');
     ("Mixed layer depth", map (mixed_layer_temp_feedback cp) dt);
     ("CO2 solubility", map (solubility_temp_feedback cp) dt);
     ("Net Primary Production", map (fnpp_from_temp cp) dt)];
  if crun then
    do f <- set_col f "Airborne fraction CO2" (airborne ems conc);
    do f <- set_col f "Emissions" ems; Ok (cc', f)
  else Ok (cc', f).
(** concentrations_emissions_handler.py 1030-1083; the default carbon cycle always returns a frame here *)
Definition carbon_data (p : hpam A) (emis : frame A) (cc : cc_state A) (st : hst A) (series : dict (list A))
  : result (cc_state A * frame A) :=
  do d <- key "CO2" (dget (s_conc st) "CO2");
  let conc := map snd d in
  if conc_run p then carbon_output cc (years_of p) true conc series
  else
    do ff <- mapM (fr_get emis "CO2_FF") (years_of p);
    do af <- mapM (fr_get emis "CO2_AFOLU") (years_of p);
    do r <- carbon_output cc (years_of p) false conc series;
    do f <- set_col (snd r) "Airborne fraction CO2" (airborne (map2 nadd ff af) conc);
    Ok (fst r, f).

(** ** The handler of a run with the default carbon cycle *)
Record scenario := {
  c_p : hpam A; c_conc : frame A; c_emis : frame A; c_nat_ch4 : frame A; c_nat_n2o : frame A;
  c_pert : option (ptable A); c_pc : frame A; c_erf : frame A }.
Variable sc : scenario.
Definition handler : Type := cc_state A * hst A.

(** carbon_cycle_mod.py 514-523 *)
Definition dtemp_of (fb : option (dict A)) : A :=
  match fb with Some d => match dget d "dtemp" with Some x => x | None => #0 end | None => #0 end.
Definition h_co2 (cc : cc_state A) (y : Z) (em : A) (fb : option (dict A)) : cc_state A * A :=
  co2em2conc cp cc (Z.to_nat (y - nystart (c_p sc))) em (dtemp_of fb).
Definition h_emi2conc (h : handler) (y : Z) (fb : option (dict A)) : result handler :=
  emi2conc (cc_state A) (option (dict A)) h_co2 (c_p sc) (c_conc sc) (c_emis sc) (c_nat_ch4 sc) (c_nat_n2o sc)
    y fb (fst h) (snd h).
Definition h_conc2forc (h : handler) (y : Z) (luc sun : A) : result (handler * (A * A * A * A)) :=
  do r <- conc2forc (c_p sc) (c_conc sc) (c_emis sc) (c_erf sc) (c_pert sc) y luc sun (snd h);
  Ok ((fst h, snd r), fst r).
(** concentrations_emissions_handler.py 966-1028 *)
Definition h_add_results (h : handler) (carbon : bool) (series : dict (list A)) : result (dict (frame A)) :=
  do forc <- forcing_frame (c_p sc) (snd h) (c_erf sc);
  do em <- emission_frame (c_p sc) (c_emis sc);
  do conc <- concentration_frame (c_p sc) (snd h) (c_pc sc);
  let fs := [("emissions", em); ("concentrations", conc); ("forcing", forc)] in
  if carbon then do r <- carbon_data (c_p sc) (c_emis sc) (fst h) (snd h) series; Ok (fs ++ [("carbon cycle", snd r)])
  else Ok fs.
(** carbon_cycle_abstract.py 143-155 *)
Definition h_feedbacks : option (list string) := Some ["dtemp"].

(** ciceroscm.py 231-332 with this handler. A run starts from a reset handler (345-374); [cc0] is the carbon cycle
    after [reset_co2_hold]. *)
Definition coupled_run {T} (th : thermal A T) (c : inst A) (gt : dict (gas A)) (t0 : T) (cc0 : cc_state A)
  (as_dict carbon : bool) (r : results A) : outcome A handler :=
  run T th c handler h_emi2conc h_conc2forc h_add_results h_feedbacks t0 (cc0, reset_arrays (c_p sc) gt (c_erf sc))
    as_dict carbon r.
End Results.
Arguments scenario A : clear implicits.
Arguments handler A : clear implicits.
