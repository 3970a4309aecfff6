(** * P_Natural2: a gas table handed from a run to the next instance (C96) *)
From Verif Require Import PyBase PyBaseFacts Num M_Gas M_Forcing M_Driver M_Input M_Results M_BoxRun M_Reading Spec_Driver Spec_Input Spec_Reading P_Natural.

Section Handed.
Context {A : Type} {N : Num A}.
Variables (nan : A) (fs : files A) (object : pyval -> option (thing A)) (dir cwd : string).
Lemma rows_get (lines : dict (gasline A)) k : dget (gas_rows lines) k =
  option_map (fun l => {| em_unit := gl_em_unit l; conc_unit := g_unit (gl_gas l); nat_em := g_nat (gl_gas l) |}) (dget lines k).
Proof. unfold gas_rows. induction lines as [|[a l] r IH]; [reflexivity|]. cbn [map dget fst snd]. destruct (String.eqb a k); [reflexivity|exact IH]. Qed.
Lemma flat_of cfg v lines line what k t : dget cfg "gaspam_file" = None -> dget cfg "gaspam_data" = Some v -> object v = Some (TGas lines) -> dget lines k = Some line ->
  In (what, k) [("nat_ch4", "CH4"); ("nat_n2o", "N2O")] -> given cfg what = false -> input nan fs object dir cwd cfg what t ->
  exists years, run_years_of cfg years /\ t = TFrame (Build_frame years [(k, map (fun _ => g_nat (gl_gas line)) years)]).
Proof.
  intros F D OB L I G (m & d & _ & S & C).
  assert (Q : dget cfg (what ++ "_file") = None /\ dget cfg (what ++ "_data") = None).
  { unfold given in G. apply Bool.orb_false_iff in G as [G1 G2]. unfold dmem in *. destruct (dget cfg (what ++ "_file")), (dget cfg (what ++ "_data")); try discriminate. now split. }
  destruct Q as [Q1 Q2].
  inversion S as [p p' X|years _ X|v' _ X|X|X|X|c0 C0 years d0 g r K W _ S0 GT GR RY]; subst; try congruence; try (exfalso; cbn [In] in I; destruct I as [I|[I|[]]]; discriminate I);
    try (destruct I as [I|[I|[]]]; injection I as <- <-; (discriminate || (destruct X; discriminate))).
  assert (C0 = k) as -> by (destruct I as [I|[I|[]]], K as [K|K]; congruence).
  assert (d0 = Given (CV v)) as ->.
  { inversion S0 as [p p' X|y0 _ X|v' _ X|X|X|X|c1 C1 y1 d1 g1 r1 K1 W1]; subst; cbn [append] in *; try congruence; try discriminate; try (destruct X; discriminate); try (destruct K1; congruence). }
  unfold gas_table, gas_content in GT. cbn [content] in GT. rewrite OB in GT. cbn [rbind] in GT. injection GT as <-. rewrite rows_get, L in GR. injection GR as <-.
  cbn [content nat_em] in C. injection C as <-. exists years. split; [exact RY|reflexivity].
Qed.
Lemma handed_on {T} (th : thermal A T) CC year data sc c gt t0 (cc0 : CC) as_dict carbon r out k series g what cfg v lines line t :
  any_run nan CC year data sc th c gt t0 cc0 as_dict carbon r = out -> o_exn out = None -> d_rf c = None -> (0 < d_years c)%nat ->
  In (what, k, series) [("nat_ch4", "CH4", c_nat_ch4 sc); ("nat_n2o", "N2O", c_nat_n2o sc)] -> dget gt k = Some g -> g_unit g <> "-" -> dmem (fr_cols (c_erf sc)) k = false ->
  let last := (d_start c + Z.of_nat (d_years c) - 1)%Z in conc_run (c_p sc) = false -> (emstart (c_p sc) <= last)%Z ->
  dget cfg "gaspam_file" = None -> dget cfg "gaspam_data" = Some v -> object v = Some (TGas lines) ->
  dget lines k = Some line -> dget (s_gas (snd (o_handler out))) k = Some (gl_gas line) ->
  given cfg what = false -> input nan fs object dir cwd cfg what t ->
  exists years n, run_years_of cfg years /\ fr_get series k last = Ok n /\ t = TFrame (Build_frame years [(k, map (fun _ => n) years)]).
Proof.
  intros E X RF L I G U M last CR LE F D OB LL LG GV IN.
  destruct (natural_left th nan CC year data sc c gt t0 cc0 as_dict carbon r out k series g E X RF L) as (g' & G' & _ & NL); [|exact G|exact U|exact M|].
  { destruct I as [I|[I|[]]]; injection I as _ <- <-; [now left|right; now left]. }
  destruct (flat_of cfg v lines line what k t F D OB LL) as (years & RY & TT); [|exact GV|exact IN|].
  { destruct I as [I|[I|[]]]; injection I as <- <- _; [now left|right; now left]. }
  exists years, (g_nat (gl_gas line)). split; [exact RY|]. split; [|exact TT]. replace (gl_gas line) with g' by congruence. exact (NL CR LE).
Qed.
End Handed.
