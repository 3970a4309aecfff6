(** * M_Gas: concentrations of the handler,
      /repo/src/ciceroscm/concentrations_emissions_handler.py 196-394, 728-888
      and perturbations.py 60-90 (emission perturbations), 209-228 *)
From Verif Require Import PyBase Num.

Notation "'do' x <- e ; k" := (rbind e (fun x => k)) (at level 61, x binder, e at next level, right associativity).

Fixpoint mapM {B C} (f : B -> result C) (l : list B) {struct l} : result (list C) :=
  match l with
  | [] => Ok []
  | x :: r => do y <- f x; do ys <- mapM f r; Ok (y :: ys)
  end.

(** [l[a:b]] with python's treatment of negative and too large bounds *)
Definition slice_pos (n i : Z) : nat := Z.to_nat (if (i <? 0)%Z then Z.max 0 (i + n) else Z.min i n).
Definition pyslice {B} (l : list B) (a b : Z) : list B :=
  let n := Z.of_nat (List.length l) in
  firstn (slice_pos n b - slice_pos n a) (skipn (slice_pos n a) l).

(** [np.arange(a, b)] for integers *)
Definition zrange (a : Z) (n : nat) : list Z := map (fun i => (a + Z.of_nat i)%Z) (seq 0 n).

(** dictionaries keyed by year *)
Fixpoint yget {V} (d : list (Z * V)) (y : Z) : option V :=
  match d with [] => None | (k, v) :: r => if Z.eqb k y then Some v else yget r y end.
Fixpoint yset {V} (d : list (Z * V)) (y : Z) (v : V) : list (Z * V) :=
  match d with
  | [] => [(y, v)]
  | (k, w) :: r => if Z.eqb k y then (k, v) :: r else (k, w) :: yset r y v
  end.

(** A pandas frame with years as index: labels and columns (in order). A missing column or year
    is a KeyError; the year is not part of the modelled message. *)
Record frame (A : Type) := { fr_index : list Z; fr_cols : dict (list A) }.
Arguments fr_index {A}. Arguments fr_cols {A}. Arguments Build_frame {A}.
Definition key {B} (k : string) (o : option B) : result B := match o with Some v => Ok v | None => Err (KeyError k) end.
Definition YEAR : string := "year".
Definition fr_col {A} (f : frame A) (c : string) : result (list A) := key c (dget (fr_cols f) c).
(** [df[c][y]] *)
Definition fr_get {A} (f : frame A) (c : string) (y : Z) : result A :=
  do v <- fr_col f c; key YEAR (yget (combine (fr_index f) v) y).

(** One row of the gas parameter table (input_handler.py 23-44): CONC_UNIT, BETA, ALPHA, TAU1-3, NAT_EM, SARF_TO_ERF *)
Record gas (A : Type) := {
  g_unit : string; g_beta : A; g_alpha : A; g_tau1 : A; g_tau2 : A; g_tau3 : A; g_nat : A; g_sarf : A }.
Arguments g_unit {A}. Arguments g_beta {A}. Arguments g_alpha {A}. Arguments g_tau1 {A}. Arguments g_tau2 {A}.
Arguments g_tau3 {A}. Arguments g_nat {A}. Arguments g_sarf {A}.

(** The part of [self.pamset] that the numeric code reads *)
Record hpam (A : Type) := {
  nystart : Z; nyend : Z; emstart : Z; conc_run : bool; lifetime_mode : string; just_one : option string;
  ref_yr : Z; qbmb : A; qo3 : A; qdirso2 : A; qindso2 : A; qbc : A; qoc : A; qh2o_ch4 : A; qnmvoc : A; qnh3 : A; qnox : A;
  cl_dict : dict Z; br_dict : dict Z }.
Arguments nystart {A}. Arguments nyend {A}. Arguments emstart {A}. Arguments conc_run {A}. Arguments lifetime_mode {A}.
Arguments just_one {A}. Arguments ref_yr {A}. Arguments qbmb {A}. Arguments qo3 {A}. Arguments qdirso2 {A}.
Arguments qindso2 {A}. Arguments qbc {A}. Arguments qoc {A}. Arguments qh2o_ch4 {A}. Arguments qnmvoc {A}.
Arguments qnh3 {A}. Arguments qnox {A}. Arguments cl_dict {A}. Arguments br_dict {A}.

(** A forcing perturbation table: rows (year, component, forcing); an emission perturbation table has the same shape *)
Definition ptable (A : Type) := list (Z * string * A).

(** 196: [self.years] *)
Definition years_of {A} (p : hpam A) : list Z := zrange (nystart p) (Z.to_nat (nyend p - nystart p + 1)).

Section Gas.
Context {A : Type} {N : Num A}.
Local Open Scope num_scope.

(** concentrations_emissions_handler.py 219-228: the gases whose concentrations and forcing are computed in advance *)
Definition three_main : list string := ["CO2"; "CH4"; "N2O"].
Definition vanilla (gt : dict (gas A)) : result (dict (gas A)) :=
  if forallb (dmem gt) three_main
  then Ok (filter (fun kg => negb (smem (fst kg) three_main || String.eqb (g_unit (snd kg)) "-")) gt)
  else Err (KeyError "three_main").

(** concentrations_emissions_handler.py 305-314: the yearly update of an ordinary gas *)
Definition vec_step (g : gas A) (em prev : A) : A :=
  let q := #1 / g_tau1 g in
  (em + g_nat g) / g_beta g / q * (#1 - nexp (- q)) + prev * nexp (- q).
Fixpoint vec_years (g : gas A) (prev : A) (ems : list A) {struct ems} : list A :=
  match ems with
  | [] => []
  | e :: r => let c := vec_step g e prev in c :: vec_years g c r
  end.

(** concentrations_emissions_handler.py 280-321, per column: the code computes all columns of a row at once, elementwise *)
Definition precalc_column (g : gas A) (pre ems : list A) : result (list A) :=
  match rev pre, ems with
  | _, [] => Err ValueError
  | [], _ => Err IndexError
  | last :: _, _ => Ok (pre ++ vec_years g last ems)
  end.
Definition precalc_conc (p : hpam A) (gv : dict (gas A)) (conc_in emis : frame A) : result (frame A) :=
  do cols <- mapM (fun kg => do v <- fr_col conc_in (fst kg); Ok (fst kg, v)) gv;
  match fr_index conc_in with
  | [] => Err IndexError
  | c0 :: _ =>
      if conc_run p || (nyend p <=? emstart p)%Z
      then Ok (Build_frame (pyslice (fr_index conc_in) (nystart p - c0) (nyend p - c0 + 1))
                 (map (fun kv => (fst kv, pyslice (snd kv) (nystart p - c0) (nyend p - c0 + 1))) cols))
      else
        match fr_index emis with
        | [] => Err IndexError
        | e0 :: _ =>
            do out <- mapM (fun kg =>
                 do v <- fr_col conc_in (fst kg);
                 do e <- fr_col emis (fst kg);
                 do c <- precalc_column (snd kg) (pyslice v (nystart p - c0) (emstart p - c0))
                           (pyslice e (emstart p - e0) (nyend p - e0 + 1));
                 Ok (fst kg, c)) gv;
            Ok (Build_frame (pyslice (fr_index conc_in) (nystart p - c0) (emstart p - c0)
                             ++ pyslice (fr_index emis) (emstart p - e0) (nyend p - e0 + 1)) out)
        end
  end.

(** concentrations_emissions_handler.py 261-278 *)
Definition precalc_erf (gv : dict (gas A)) (pc : frame A) : result (frame A) :=
  match fr_index pc with
  | [] => Err IndexError
  | _ =>
      do cols <- mapM (fun kg =>
        do v <- fr_col pc (fst kg);
        match v with
        | [] => Err IndexError
        | c0 :: _ => Ok (fst kg, map (fun c => g_sarf (snd kg) * g_alpha (snd kg) * (c - c0)) v)
        end) gv;
      Ok (Build_frame (fr_index pc) cols)
  end.

(** [np.power] with a positive exponent: 0 at 0 ([npow] is only used for positive bases) *)
Definition pow0 (x e : A) : A := if neqb x #0 then #0 else npow x e.
Definition nsign (x : A) : A := if nltb x #0 then - #1 else if nltb #0 x then #1 else #0.
(** concentrations_emissions_handler.py 397-411 for one year of the array [yr] *)
Definition sumcl_at (p : hpam A) (conc : frame A) (y : Z) : result A :=
  fold_left (fun acc cm => do s <- acc; do c <- fr_get conc (fst cm) y; do c0 <- fr_get conc (fst cm) (nystart p);
     let num := c - c0 in Ok (s + nsign num * pow0 (nofZ (snd cm) * nabs num) (dec 17 1))) (cl_dict p) (Ok #0).
Definition sumbr_at (p : hpam A) (conc : frame A) (y : Z) : result A :=
  fold_left (fun acc cm => do s <- acc; do c <- fr_get conc (fst cm) y; do c0 <- fr_get conc (fst cm) (nystart p);
     Ok (s + nofZ (snd cm) * (c - c0))) (br_dict p) (Ok #0).
(** concentrations_emissions_handler.py 328-337 *)
Definition strat_o3 (sarf sumcl sumbr : A) : A :=
  - (dec 5 2 / dec 17377 5 * (dec 552 6 * sumcl + dec 3048 3 * sumbr)) / #1000 * sarf.
(** concentrations_emissions_handler.py 323-338: the column, three years behind; [sumcl[3:] = ...(years[:-3])] *)
Definition strat_o3_column (p : hpam A) (gt : dict (gas A)) (conc : frame A) : result (list A) :=
  do g <- key "STRAT_O3" (dget gt "STRAT_O3");
  mapM (fun i =>
    if Nat.ltb i 3 then Ok (strat_o3 (g_sarf g) #0 #0)
    else let y := (nystart p + Z.of_nat (i - 3))%Z in
      do cl <- sumcl_at p conc y; do br <- sumbr_at p conc y; Ok (strat_o3 (g_sarf g) cl br))
    (seq 0 (List.length (years_of p))).

(** perturbations.py 209-228: [loc[years, gas] = loc[years, gas].values + forcing]: the right-hand side is
    read before anything is written, so of several rows for one year the last one stays *)
Fixpoint assign_rows (ix : list Z) (old cur : list A) (rows : list (Z * A)) {struct rows} : result (list A) :=
  match rows with
  | [] => Ok cur
  | (y, f) :: r =>
      do o <- key YEAR (yget (combine ix old) y);
      assign_rows ix old (map (fun kv => if Z.eqb (fst kv) y then o + f else snd kv) (combine ix cur)) r
  end.
Definition pert_vanilla_col (pt : ptable A) (ix : list Z) (kv : string * list A) : result (string * list A) :=
  let rows := filter (fun r => String.eqb (snd (fst r)) (fst kv)) pt in
  do v <- assign_rows ix (snd kv) (snd kv) (map (fun r => (fst (fst r), snd r)) rows);
  Ok (fst kv, v).

(** concentrations_emissions_handler.py 219-246: [precalc_conc], [precalc_erf] without its column TOT_vanilla, which is the sum over the columns (241-243) *)
Definition precalculate (p : hpam A) (gt : dict (gas A)) (conc_in emis : frame A) (pert : option (ptable A))
  : result (frame A * frame A) :=
  do gv <- vanilla gt;
  do pc <- precalc_conc p gv conc_in emis;
  do erf <- precalc_erf gv pc;
  do so <- strat_o3_column p gt pc;
  if Nat.eqb (List.length so) (List.length (fr_index pc)) then
    let cols := dset (fr_cols erf) "STRAT_O3" so in
    do cols <- match pert with None => Ok cols | Some pt => mapM (pert_vanilla_col pt (fr_index pc)) cols end;
    Ok (pc, Build_frame (fr_index pc) cols)
  else Err ValueError.
Definition tot_vanilla (erf : frame A) (y : Z) : result A :=
  do vs <- mapM (fun kv => key YEAR (yget (combine (fr_index erf) (snd kv)) y)) (fr_cols erf);
  Ok (nsum vs).

(** concentrations_emissions_handler.py 242-246 *)
Definition gases_spicy (gt : dict (gas A)) (erf : frame A) : list string :=
  filter (fun k => negb (dmem (fr_cols erf) k)) (dkeys gt).

(** The mutable part of the handler: [self.df_gas] (NAT_EM is overwritten), [self.conc], [self.forc] *)
Record hst := { s_gas : dict (gas A); s_conc : dict (list (Z * A)); s_forc : dict (list A) }.

(** concentrations_emissions_handler.py 365-374 *)
Definition reset_arrays (p : hpam A) (gt : dict (gas A)) (erf : frame A) : hst :=
  let spicy := filter (fun k => negb (String.eqb k "CO2.1")) (gases_spicy gt erf) in
  let has_conc k := String.eqb k "TROP_O3" ||
    match dget gt k with Some g => negb (String.eqb (g_unit g) "-") | None => false end in
  {| s_gas := gt;
     s_conc := map (fun k => (k, [])) (filter has_conc spicy);
     s_forc := dset (map (fun k => (k, tab (List.length (years_of p)) (fun _ => #0))) spicy)
                    "Total_forcing" (tab (List.length (years_of p)) (fun _ => #0)) |}.

Definition set_conc (st : hst) (c : dict (list (Z * A))) : hst :=
  {| s_gas := s_gas st; s_conc := c; s_forc := s_forc st |}.
Definition set_forc (st : hst) (f : dict (list A)) : hst :=
  {| s_gas := s_gas st; s_conc := s_conc st; s_forc := f |}.
Definition set_gas (st : hst) (g : dict (gas A)) : hst :=
  {| s_gas := g; s_conc := s_conc st; s_forc := s_forc st |}.

Definition conc_get (st : hst) (t : string) (y : Z) : result A :=
  do d <- key t (dget (s_conc st) t); key YEAR (yget d y).
Definition conc_set (st : hst) (t : string) (y : Z) (v : A) : result hst :=
  do d <- key t (dget (s_conc st) t); Ok (set_conc st (dset (s_conc st) t (yset d y v))).

(** concentrations_emissions_handler.py 848-874 *)
Definition fill_one_row (conc_in : frame A) (y : Z) (avoid : list string) (st : hst) : result hst :=
  fold_left (fun acc t => do s <- acc;
      if smem t avoid then Ok s
      else if dmem (fr_cols conc_in) t then do v <- fr_get conc_in t y; conc_set s t y v
      else conc_set s t y #0) (dkeys (s_conc st)) (Ok st).
(** concentrations_emissions_handler.py 876-888 *)
Definition add_row_of_zeros (y : Z) (st : hst) : hst :=
  set_conc st (map (fun kv => (fst kv, yset (snd kv) y #0)) (s_conc st)).

(** concentrations_emissions_handler.py 808-846 *)
Definition methane_lifetime (p : hpam A) (emis : frame A) (g : gas A) (q conc_local : A) (y : Z) : result A :=
  do q' <-
    (if String.eqb (lifetime_mode p) "TAR" then
       do nox <- fr_get emis "NOx" y; do nox0 <- fr_get emis "NOx" 2000%Z;
       do co <- fr_get emis "CO" y; do co0 <- fr_get emis "CO" 2000%Z;
       do voc <- fr_get emis "NMVOC" y; do voc0 <- fr_get emis "NMVOC" 2000%Z;
       let dln_oh := - dec 32 2 * (nln conc_local - nln #1751) + dec 42 4 * (nox - nox0)
                     - dec 105 6 * (co - co0) - dec 315 6 * (voc - voc0) in
       Ok (q * (dln_oh + #1))
     else if String.eqb (lifetime_mode p) "CONSTANT_12" then Ok (#1 / #12)
     else if String.eqb (lifetime_mode p) "WIGLEY" then Ok (q * npow (conc_local / #1700) (- dec 238 3))
     else Ok q);
  Ok (q' + #1 / g_tau2 g + #1 / g_tau3 g).

(** concentrations_emissions_handler.py 800-806 *)
Definition scalar_step (beta q em prev : A) : A :=
  let point_conc := em / beta in
  point_conc / q + (prev - point_conc / q) * nexp (- q).

Definition with_nat (g : gas A) (v : A) : gas A :=
  {| g_unit := g_unit g; g_beta := g_beta g; g_alpha := g_alpha g; g_tau1 := g_tau1 g; g_tau2 := g_tau2 g;
     g_tau3 := g_tau3 g; g_nat := v; g_sarf := g_sarf g |}.

Section Emi2conc.
(** The carbon cycle object: state, and [co2em2conc(yr, em, feedback_dict)] *)
Variables (S Fb : Type) (co2em2conc : S -> Z -> A -> Fb -> S * A).
Variables (p : hpam A) (conc_in emis nat_ch4 nat_n2o : frame A).

(** concentrations_emissions_handler.py 759-761, 780-784 *)
Definition co2_emission (st : hst) (y : Z) : result A :=
  do ff <- fr_get emis "CO2_FF" y; do af <- fr_get emis "CO2_AFOLU" y;
  do g <- key "CO2" (dget (s_gas st) "CO2"); Ok (ff + af + g_nat g).
Definition co2_year (cc : S) (y : Z) (fb : Fb) (st : hst) : result (S * hst) :=
  do em <- co2_emission st y;
  let r := co2em2conc cc y em fb in
  do st' <- conc_set st "CO2" y (snd r); Ok (fst r, st').

(** concentrations_emissions_handler.py 769-806: one turn of the loop over [self.conc]; 787-788 cannot apply (770 is reached for [yr >= emstart] only) *)
Definition emi2conc_tracer (y : Z) (fb : Fb) (acc : result (S * hst)) (t : string) : result (S * hst) :=
  do a <- acc;
  let '(cc, st) := a in
  do g <- key t (dget (s_gas st) t);
  if String.eqb (g_unit g) "-" then Ok (cc, st)
  else if String.eqb t "CO2" then co2_year cc y fb st
  else
    do prev <- (if (y >? nystart p)%Z then conc_get st t (y - 1)%Z else fr_get conc_in t y);
    let q := #1 / g_tau1 g in
    do gn <- (if String.eqb t "CH4" then
                do n <- fr_get nat_ch4 "CH4" y; do q' <- methane_lifetime p emis g q prev y; Ok (with_nat g n, q')
              else if String.eqb t "N2O" then do n <- fr_get nat_n2o "N2O" y; Ok (with_nat g n, q)
              else Ok (g, q));
    let '(g', q') := gn in
    let st := set_gas st (dset (s_gas st) t g') in
    do e <- fr_get emis t y;
    do st' <- conc_set st t y (scalar_step (g_beta g') q' (e + g_nat g') prev);
    Ok (cc, st').

(** concentrations_emissions_handler.py 728-806 *)
Definition emi2conc (y : Z) (fb : Fb) (cc : S) (st : hst) : result (S * hst) :=
  if conc_run p then do st' <- fill_one_row conc_in y [] st; Ok (cc, st')
  else if (y <? emstart p)%Z then
    do a <- co2_year cc y fb st;
    do st' <- fill_one_row conc_in y ["CO2"] (snd a); Ok (fst a, st')
  else fold_left (emi2conc_tracer y fb) (dkeys (s_conc st)) (Ok (cc, add_row_of_zeros y st)).
End Emi2conc.

(** perturbations.py 60-90: rows (year, component, emission), applied to the caller's frame one after another *)
Fixpoint perturb_emissions (rows : ptable A) (emis : frame A) {struct rows} : result (frame A) :=
  match rows with
  | [] => Ok emis
  | (y, comp, e) :: r =>
      let t := if String.eqb comp "CO2" && negb (dmem (fr_cols emis) "CO2") then "CO2_FF" else comp in
      do old <- fr_get emis t y;
      do col <- fr_col emis t;
      perturb_emissions r
        (Build_frame (fr_index emis)
           (dset (fr_cols emis) t (map (fun kv => if Z.eqb (fst kv) y then old + e else snd kv)
                                        (combine (fr_index emis) col))))
  end.
End Gas.
Arguments hst A : clear implicits.
