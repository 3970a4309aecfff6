(** * P_Natural: the natural emissions that a run leaves in the gas table (C96) *)
From Coq Require Import Lia.
From Verif Require Import PyBase PyBaseFacts Num M_Gas M_Forcing M_Carbon M_Driver M_Results M_BoxRun Spec_Driver Spec_Rerun P_Gas3 P_Coupled P_Coupled2 P_Needs P_Rerun.

Section Years.
Context {A : Type} {N : Num A}.
Variables (S Fb : Type) (co2 : S -> Z -> A -> Fb -> S * A) (p : hpam A) (conc_in emis n4 n2 : frame A).
Notation E2C := (emi2conc S Fb co2 p conc_in emis n4 n2).
Notation turn := (emi2conc_tracer S Fb co2 p conc_in emis n4 n2).
Lemma fill_gas y avoid st st' : fill_one_row conc_in y avoid st = Ok st' -> s_gas st' = s_gas st.
Proof.
  unfold fill_one_row. generalize (dkeys (s_conc st)). intros l. revert st. induction l as [|t l IH]; intros st H; cbn [fold_left rbind] in H; [now injection H as <-|].
  match type of H with fold_left _ l ?x = _ => destruct x as [s1|] eqn:E end. 2:{ rewrite fold_err in H by reflexivity. discriminate. }
  rewrite (IH s1 H). destruct (smem t avoid); [now injection E as <-|]. destruct (dmem (fr_cols conc_in) t); [destruct (fr_get conc_in t y); cbn [rbind] in E; [|discriminate]|]; exact (proj1 (conc_set_rest _ _ _ _ _ E)).
Qed.
Lemma co2_gas cc y fb st cc' st' : co2_year S Fb co2 emis cc y fb st = Ok (cc', st') -> s_gas st' = s_gas st.
Proof.
  unfold co2_year. destruct (co2_emission emis st y); cbn [rbind]; [|discriminate].
  destruct (conc_set st "CO2" y _) as [s1|] eqn:E; cbn [rbind]; [|discriminate]. intros H; injection H as _ <-. exact (proj1 (conc_set_rest _ _ _ _ _ E)).
Qed.
(** years without emissions *)
Lemma idle y fb cc st cc' st' : conc_run p = true \/ (y < emstart p)%Z -> E2C y fb cc st = Ok (cc', st') -> s_gas st' = s_gas st.
Proof.
  intros I. unfold emi2conc. destruct (conc_run p).
  { destruct (fill_one_row conc_in y [] st) as [s1|] eqn:E; cbn [rbind]; [|discriminate]. intros H; injection H as _ <-. exact (fill_gas _ _ _ _ E). }
  destruct I as [I|I]; [discriminate|]. destruct (Z.ltb_spec y (emstart p)) as [LT|LT]; [|lia].
  destruct (co2_year _ _ _ _ _ _ _ _) as [[c1 s1]|] eqn:E; cbn [rbind]; [|discriminate]. cbn [fst snd].
  destruct (fill_one_row conc_in y ["CO2"] s1) as [s2|] eqn:E2; cbn [rbind]; [|discriminate]. intros H; injection H as _ <-. rewrite (fill_gas _ _ _ _ E2). exact (co2_gas _ _ _ _ _ _ E).
Qed.
Variables (k : string) (nat_k : frame A).
Hypothesis K : (k, nat_k) = ("CH4", n4) \/ (k, nat_k) = ("N2O", n2).
Definition plain (st : hst A) : Prop := exists g, dget (s_gas st) k = Some g /\ g_unit g <> "-".
Definition written (y : Z) (st : hst A) : Prop := exists g, dget (s_gas st) k = Some g /\ g_unit g <> "-" /\ fr_get nat_k k y = Ok (g_nat g).
Lemma one_turn y fb cc st t cc' st' : turn y fb (Ok (cc, st)) t = Ok (cc', st') -> (plain st -> plain st' /\ (t = k -> written y st')) /\ (written y st -> written y st').
Proof.
  unfold emi2conc_tracer. cbn [rbind]. unfold key at 1. destruct (dget (s_gas st) t) as [g|] eqn:EG; cbn [rbind]; [|discriminate].
  destruct (String.eqb_spec (g_unit g) "-") as [U|U].
  { intros H; injection H as _ <-. split; [|auto]. intros P. split; [exact P|]. intros ->. destruct P as (g' & G' & U'). congruence. }
  destruct (String.eqb_spec t "CO2") as [->|NC].
  { intros H. apply co2_gas in H. unfold plain, written. rewrite H. split; [|auto]. intros P. split; [exact P|]. intros <-. destruct K as [X|X]; discriminate X. }
  match goal with |- (do _ <- ?e; _) = _ -> _ => destruct e as [prev|]; cbn [rbind]; [|discriminate] end. cbv zeta.
  match goal with |- (do _ <- ?e; _) = _ -> _ => destruct e as [[g' q']|] eqn:EN; cbn [rbind]; [|discriminate] end.
  destruct (fr_get emis t y); cbn [rbind]; [|discriminate].
  match goal with |- (do _ <- ?e; _) = _ -> _ => destruct e as [s1|] eqn:E; cbn [rbind]; [|discriminate] end.
  intros H; injection H as _ <-. apply conc_set_rest in E as [E _]. cbn [s_gas set_gas] in E.
  assert (UN : g_unit g' = g_unit g /\ (t = k -> fr_get nat_k k y = Ok (g_nat g'))).
  { destruct (String.eqb_spec t "CH4") as [->|N4].
    - destruct (fr_get n4 "CH4" y) as [n|] eqn:F; cbn [rbind] in EN; [|discriminate]. destruct (methane_lifetime _ _ _ _ _ _); cbn [rbind] in EN; [|discriminate]. injection EN as <- _.
      split; [reflexivity|]. intros <-. destruct K as [X|X]; [|discriminate X]. injection X as ->. exact F.
    - destruct (String.eqb_spec t "N2O") as [->|NN].
      + destruct (fr_get n2 "N2O" y) as [n|] eqn:F; cbn [rbind] in EN; [|discriminate]. injection EN as <- _. split; [reflexivity|]. intros <-. destruct K as [X|X]; [discriminate X|]. injection X as ->. exact F.
      + injection EN as <- _. split; [reflexivity|]. intros ->. destruct K as [X|X]; injection X as X _; contradiction. }
  destruct UN as [UN NA]. unfold plain, written. rewrite E, dget_dset. destruct (String.eqb_spec t k) as [TK|NK].
  - split; [|intros _; exists g'; split; [reflexivity|split; [congruence|exact (NA TK)]]]. intros _. split; [exists g'; split; [reflexivity|congruence]|]. intros _. exists g'. split; [reflexivity|split; [congruence|exact (NA TK)]].
  - split; [|auto]. intros P. split; [exact P|]. intros X. contradiction.
Qed.
Lemma turns y fb l : forall cc st cc' st', fold_left (turn y fb) l (Ok (cc, st)) = Ok (cc', st') -> plain st -> plain st' /\ (In k l \/ written y st -> written y st').
Proof.
  induction l as [|t l IH]; intros cc st cc' st' H P; cbn [fold_left] in H; [injection H as _ <-; split; [exact P|]; intros [[]|X]; exact X|].
  match type of H with fold_left _ l ?x = _ => destruct x as [[c1 s1]|] eqn:E end. 2:{ rewrite fold_err in H by reflexivity. discriminate. }
  destruct (one_turn _ _ _ _ _ _ _ E) as [P1 P2]. destruct (P1 P) as [P3 P4]. destruct (IH _ _ _ _ H P3) as [P5 P6]. split; [exact P5|]. intros [[->|I]|X]; apply P6; [right; apply P4; reflexivity|now left|right; exact (P2 X)].
Qed.
Lemma busy y fb cc st cc' st' : conc_run p = false -> (emstart p <= y)%Z -> In k (dkeys (s_conc st)) -> plain st -> E2C y fb cc st = Ok (cc', st') -> written y st'.
Proof.
  intros CR LY I P. unfold emi2conc. rewrite CR. destruct (Z.ltb_spec y (emstart p)) as [LT|LT]; [lia|]. intros H. apply (turns _ _ _ _ _ _ _ H); [exact P|]. now left.
Qed.
Lemma stays_plain y fb cc st cc' st' : plain st -> E2C y fb cc st = Ok (cc', st') -> plain st'.
Proof.
  intros P E. destruct (conc_run p) eqn:CR; [|destruct (Z_lt_le_dec y (emstart p)) as [L|L]].
  - unfold plain. rewrite (idle _ _ _ _ _ _ (or_introl CR) E). exact P.
  - unfold plain. rewrite (idle _ _ _ _ _ _ (or_intror L) E). exact P.
  - unfold emi2conc in E. rewrite CR in E. destruct (Z.ltb_spec y (emstart p)) as [LT|LT]; [lia|]. exact (proj1 (turns _ _ _ _ _ _ _ E P)).
Qed.
End Years.

Section Left.
Context {A : Type} {N : Num A} {T : Type} (th : thermal A T).
Variables (nan : A) (CC : Type) (year : CC -> nat -> A -> A -> CC * A) (data : CC -> hst A -> dict (list A) -> result (CC * frame A)) (sc : scenario A).
Notation p := (c_p sc).
Variables (c : inst A).
Notation E2C := (any_emi2conc CC year sc).
Notation C2F := (any_conc2forc CC sc).
Lemma forc_gas h y luc sun h' q : C2F h y luc sun = Ok (h', q) -> s_gas (snd h') = s_gas (snd h) /\ dkeys (s_conc (snd h')) = dkeys (s_conc (snd h)).
Proof.
  unfold any_conc2forc. destruct (conc2forc _ _ _ _ _ _ _ _ _) as [[q1 st2]|] eqn:C; cbn [rbind fst snd]; [|discriminate]. intros E. injection E as <- _. apply sg_conc2forc in C as (G & K & _). split; assumption.
Qed.
Lemma trace_idle n h l h' : htrace c E2C C2F n h l h' -> conc_run p = true \/ (d_start c + Z.of_nat (n + List.length l) - 1 < emstart p)%Z -> s_gas (snd h') = s_gas (snd h).
Proof.
  intros X. induction X as [n h|n h fb luc sun q h1 h2 l h3 E1 _ _ E2 X IH]; intros I; [reflexivity|]. rewrite IH by (cbn [List.length] in I; destruct I as [I|I]; [now left|right; lia]).
  rewrite (proj1 (forc_gas _ _ _ _ _ _ E2)). destruct h as [cc st], h1 as [cc1 st1]. unfold any_emi2conc in E1. cbn [fst snd] in *. eapply idle; [|exact E1]. cbn [List.length] in I. destruct I as [I|I]; [now left|right; lia].
Qed.
Lemma trace_left k nat_k n h l h' : (k, nat_k) = ("CH4", c_nat_ch4 sc) \/ (k, nat_k) = ("N2O", c_nat_n2o sc) -> htrace c E2C C2F n h l h' -> conc_run p = false ->
  (0 < List.length l)%nat -> (emstart p <= d_start c + Z.of_nat (n + List.length l) - 1)%Z -> In k (dkeys (s_conc (snd h))) -> plain k (snd h) ->
  written k nat_k (d_start c + Z.of_nat (n + List.length l) - 1) (snd h').
Proof.
  intros K X CR. induction X as [n h|n h fb luc sun q h1 h2 l h3 E1 _ _ E2 X IH]; intros L LE I P; [cbn in L; lia|].
  destruct (forc_gas _ _ _ _ _ _ E2) as [FG FK]. destruct h as [cc st], h1 as [cc1 st1]. unfold any_emi2conc in E1. cbn [fst snd] in *. cbn [List.length] in *. destruct l as [|z l].
  - inversion X; subst. unfold written. rewrite FG. cbn [List.length]. replace (d_start c + Z.of_nat (n + 1) - 1)%Z with (d_start c + Z.of_nat n)%Z by lia. cbn [List.length] in LE.
    eapply busy; [exact K|exact CR| |exact I|exact P|exact E1]. lia.
  - replace (n + Datatypes.S (List.length (z :: l)))%nat with (Datatypes.S n + List.length (z :: l))%nat by (cbn [List.length]; lia). apply IH.
    + cbn [List.length]; lia.
    + cbn [List.length] in *. lia.
    + rewrite FK. apply kind_emi2conc in E1 as [KK _]. rewrite KK. exact I.
    + unfold plain. rewrite FG. eapply stays_plain; [exact K|exact P|exact E1].
Qed.
Lemma natural_left gt t0 (cc0 : CC) as_dict carbon r out k nat_k g : any_run nan CC year data sc th c gt t0 cc0 as_dict carbon r = out -> o_exn out = None -> d_rf c = None -> (0 < d_years c)%nat ->
  In (k, nat_k) [("CH4", c_nat_ch4 sc); ("N2O", c_nat_n2o sc)] -> dget gt k = Some g -> g_unit g <> "-" -> dmem (fr_cols (c_erf sc)) k = false ->
  let last := (d_start c + Z.of_nat (d_years c) - 1)%Z in
  exists g', dget (s_gas (snd (o_handler out))) k = Some g' /\
    (conc_run p = true \/ (last < emstart p)%Z -> g' = g) /\ (conc_run p = false -> (emstart p <= last)%Z -> fr_get nat_k k last = Ok (g_nat g')).
Proof.
  intros E X RF L I G U M last. assert (K : (k, nat_k) = ("CH4", c_nat_ch4 sc) \/ (k, nat_k) = ("N2O", c_nat_n2o sc)) by (destruct I as [I|[I|[]]]; [left|right]; now symmetry).
  assert (HT : exists l, htrace c E2C C2F 0 (cc0, reset_arrays p gt (c_erf sc)) l (o_handler out) /\ List.length l = d_years c).
  { subst out. unfold any_run, run in *. destruct (run_years _ _ _ _ _ _ _ _ _ _) as [s [e|]] eqn:RY; [discriminate X|].
    match goal with |- exists l, htrace _ _ _ _ _ l (o_handler ?o) /\ _ => assert (OH : o_handler o = l_h s) end.
    { clear. repeat match goal with |- context [match ?x with _ => _ end] => destruct x end; reflexivity. }
    rewrite OH. unfold run_years, year_list in RY. rewrite <- (Z.add_0_r (d_start c)) in RY at 1.
    destruct (years_trace th c _ _ _ _ RF _ 0%nat _ RY) as (tr & l & _ & _ & HT & LL & _). exists l. split; [exact HT|exact LL]. }
  destruct HT as (l & HT & LL).
  assert (IC : In k (dkeys (s_conc (reset_arrays p gt (c_erf sc))))).
  { cbn [reset_arrays s_conc]. unfold dkeys. rewrite map_map. cbn [fst]. rewrite map_id. apply filter_In. split; [apply filter_In; split|].
    - unfold gases_spicy. apply filter_In. split; [apply dget_In_keys, dmem_true; eauto|]. now rewrite M.
    - destruct K as [K|K]; injection K as -> _; reflexivity.
    - rewrite G. destruct (String.eqb_spec (g_unit g) "-"); [contradiction|]. now destruct (String.eqb k "TROP_O3"). }
  assert (PL : plain k (reset_arrays p gt (c_erf sc))) by (exists g; split; [exact G|exact U]).
  assert (EX : conc_run p = true \/ (last < emstart p)%Z \/ conc_run p = false /\ (emstart p <= last)%Z) by (destruct (conc_run p); [now left|right]; destruct (Z_lt_le_dec last (emstart p)); [now left|right; now split]).
  assert (ID : conc_run p = true \/ (last < emstart p)%Z -> exists g', dget (s_gas (snd (o_handler out))) k = Some g' /\ g' = g).
  { intros Q. exists g. split; [|reflexivity]. rewrite (trace_idle _ _ _ _ HT); [exact G|]. rewrite LL. exact Q. }
  destruct EX as [EX|[EX|[E1 E2]]].
  - destruct (ID (or_introl EX)) as (g' & G' & Q). exists g'. split; [exact G'|]. split; [intros _; exact Q|]. congruence.
  - destruct (ID (or_intror EX)) as (g' & G' & Q). exists g'. split; [exact G'|]. split; [intros _; exact Q|]. lia.
  - destruct (trace_left k nat_k _ _ _ _ K HT E1) as (g' & G' & _ & F); [lia|rewrite LL; exact E2|exact IC|exact PL|]. rewrite LL in F. exists g'. split; [exact G'|]. split; [intros [Q|Q]; [congruence|lia]|]. intros _ _. exact F.
Qed.
End Left.
