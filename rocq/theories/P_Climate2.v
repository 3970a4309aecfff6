(** * P_Climate2: frames of two runs with the same emissions and any climate (C95) *)
From Coq Require Import Lia.
From Verif Require Import PyBase PyBaseFacts Num M_Gas M_TwoLayer M_Forcing M_Carbon M_Driver M_Results M_BoxRun Spec_Gas Spec_Driver Spec_Reader Spec_Results Spec_Coupled Spec_Climate
  P_Results P_Results2 P_Driver P_Driver2 P_Driver3 P_Driver4 P_Coupled P_AnyCarbon P_Climate P_Box3.
From Verif Require Import M_CarbonBox.

(** ** Frames *)
Section Frames.
Context {A : Type} {N : Num A} (U : string -> Prop).
Definition flike (f f' : frame A) : Prop := fr_index f = fr_index f' /\ alike U (fr_cols f) (fr_cols f').
Lemma l_make ix d d' : alike U d d' -> both flike (make_frame ix d) (make_frame ix d').
Proof. intros H. unfold make_frame. destruct (forallb _ d); [|exact I]. destruct (forallb _ d'); [|exact I]. split; [reflexivity|exact H]. Qed.
Lemma l_set f f' k v v' : flike f f' -> (U k -> v = v') -> both flike (set_col f k v) (set_col f' k v').
Proof. intros [E H] Q. unfold set_col. destruct (Nat.eqb _ _); [|exact I]. destruct (Nat.eqb _ _); [|exact I]. split; [exact E|]. apply alike_set; assumption. Qed.
Lemma l_concat f f' g : flike f f' -> both flike (concat_cols f g) (concat_cols f' g).
Proof. intros [E H]. unfold concat_cols. rewrite E. destruct (zlist_eqb _ _); [|exact I]. split; [reflexivity|]. apply alike_app; [exact H|apply alike_refl]. Qed.
Lemma l_drop f f' cs : flike f f' -> both flike (drop_cols f cs) (drop_cols f' cs).
Proof.
  intros [E H]. unfold drop_cols. destruct (find _ cs); [destruct (find _ cs); exact I|]. destruct (find _ cs); [exact I|]. split; [exact E|].
  cbn [fr_cols]. apply (alike_filter U (fun k => negb (smem k cs))). exact H.
Qed.
Lemma l_mapM {B C C'} (E : C -> C' -> Prop) (g : B -> result C) (g' : B -> result C') l : (forall x, both E (g x) (g' x)) -> both (Forall2 E) (mapM g l) (mapM g' l).
Proof.
  intros H. induction l as [|x l IH]; [constructor|]. cbn [mapM]. eapply both_bind; [apply H|]. intros a a' R. eapply both_bind; [exact IH|]. intros b b' R'. constructor; assumption.
Qed.
Lemma l_select f f' cs : flike f f' -> both flike (select f cs) (select f' cs).
Proof.
  intros [E H]. unfold select. eapply both_bind.
  - apply (l_mapM (alike U)). intros k. rewrite (alike_mem U _ _ k H). destruct (dmem (fr_cols f') k); [|exact I]. apply (alike_filter U (fun x => String.eqb x k)). exact H.
  - intros l l' R. split; [exact E|]. cbn [fr_cols]. induction R as [|a a' l l' R _ IH]; [constructor|]. cbn [List.concat]. apply alike_app; assumption.
Qed.
Lemma l_keys f f' : flike f f' -> dkeys (fr_cols f) = dkeys (fr_cols f').
Proof. intros [_ H]. apply (alike_keys U). exact H. Qed.
End Frames.

Lemma alike_weaken {V} (U W : string -> Prop) (d d' : dict V) : (forall k, W k -> U k) -> alike U d d' -> alike W d d'.
Proof. intros H. induction 1 as [|? ? ? ? [E Q] _ IH]; constructor; auto. Qed.

Section Handler.
Context {A : Type} {N : Num A}.
Variables (p p' : hpam A) (c c' : inst A).
Hypothesis SM : same_scheme p p'.
Let U := unaffected p p' c c'.
Let W k := U (component_of k).
Lemma years_same : years_of p' = years_of p.
Proof. unfold years_of. rewrite (sm_start _ _ SM), (sm_end _ _ SM). reflexivity. Qed.
Lemma U_dir : U "SO4_DIR".
Proof. split; [discriminate|]. split; [right; intros [H|[H|[]]]; discriminate H|]. split; [reflexivity|intros H; discriminate H]. Qed.
Lemma l_rename (f f' : frame A) : flike U f f' -> flike W (rename_col "SO2" "SO4_DIR" f) (rename_col "SO2" "SO4_DIR" f').
Proof.
  intros [E H]. split; [exact E|]. cbn [rename_col fr_cols]. induction H as [|[a v] [b w] d d' [X Q] R IH]; [constructor|]. cbn in *. subst b.
  constructor; [|exact IH]. cbn. split; [reflexivity|]. unfold W, component_of. destruct (String.eqb a "SO2") eqn:S.
  - apply String.eqb_eq in S. subst a. exact Q.
  - destruct (String.eqb a "SO4_DIR") eqn:D; [|exact Q]. apply String.eqb_eq in D. subst a. intros _. apply Q, U_dir.
Qed.
Lemma l_forcing st st' erf : blind p p' c c' st st' -> both (flike W) (forcing_frame p st erf) (forcing_frame p' st' erf).
Proof.
  intros (_ & _ & F). unfold forcing_frame, year_column. rewrite years_same.
  eapply both_bind; [apply (l_make U); exact F|]. intros f1 g1 R1. eapply both_bind; [apply (l_set U); [exact R1|reflexivity]|]. intros f2 g2 R2.
  eapply both_bind; [apply (l_concat U); exact R2|]. intros f3 g3 R3. eapply both_bind; [apply (l_drop U); exact R3|]. intros f4 g4 R4. rewrite (l_keys U _ _ R4).
  eapply both_bind; [apply (l_select U); exact R4|]. intros f5 g5 R5. apply l_rename. exact R5.
Qed.
Lemma l_concentration nan nan' st st' pc : nan = nan' -> blind p p' c c' st st' ->
  both (flike (unmoved p)) (concentration_frame nan p st pc) (concentration_frame nan' p' st' pc).
Proof.
  intros <- (G & C & _). unfold concentration_frame, year_column. rewrite years_same, <- G. cbv zeta.
  eapply both_bind.
  { apply (l_make (unmoved p)). apply alike_set; [|reflexivity]. clear G.
    induction C as [|[a v] [b w] d d' [X Q] R IH]; [constructor|]. cbn in *. subst b. constructor; [|exact IH]. cbn. split; [reflexivity|]. intros T. rewrite (Q T). reflexivity. }
  intros f1 g1 R1. eapply both_bind; [apply (l_concat (unmoved p)); exact R1|]. intros f2 g2 R2. rewrite (l_keys _ _ _ R2).
  eapply both_bind; [apply (l_select (unmoved p)); exact R2|]. intros f3 g3 R3. apply (l_select (unmoved p)). exact R3.
Qed.
End Handler.

(** ** Runs *)
Section Runs.
Context {A : Type} {N : Num A} {T T' : Type}.
Variables (nan : A) (CC CC' : Type) (year : CC -> nat -> A -> A -> CC * A) (year' : CC' -> nat -> A -> A -> CC' * A)
  (data : CC -> hst A -> dict (list A) -> result (CC * frame A)) (data' : CC' -> hst A -> dict (list A) -> result (CC' * frame A))
  (sc sc' : scenario A) (th : thermal A T) (th' : thermal A T') (c c' : inst A) (gt : dict (gas A)) (t0 : T) (t0' : T') (cc0 : CC) (cc0' : CC').
Hypothesis SE : same_emissions sc sc' c c'.
Local Notation p := (c_p sc).
Local Notation p' := (c_p sc').
Local Notation B := (blind p p' c c').

Lemma trace_blind l : forall l' n h h1 h' h1', htrace c (any_emi2conc CC year sc) (any_conc2forc CC sc) n h l h1 ->
  htrace c' (any_emi2conc CC' year' sc') (any_conc2forc CC' sc') n h' l' h1' -> List.length l = List.length l' -> B (snd h) (snd h') -> B (snd h1) (snd h1').
Proof.
  destruct SE as [SM E1 E2 E3 E4 E5 E6 E7 _ _ S1 S2 _ _].
  assert (SS : d_start c' = d_start c) by (rewrite S1, S2; apply (sm_start _ _ SM)).
  induction l as [|x l IH]; intros l' n h h1 h' h1' H H' LE R; destruct l' as [|x' l']; try discriminate LE.
  - inversion H; subst. inversion H'; subst. exact R.
  - inversion H as [|? ? fb luc sun q g1 g2 ? ? P1 P2 P3 P4 P5]; subst. inversion H' as [|? ? fb' luc' sun' q' g1' g2' ? ? P1' P2' P3' P4' P5']; subst.
    eapply IH; [exact P5|exact P5'|cbn in LE; lia|]. rewrite SS in *.
    unfold any_emi2conc in P1, P1'. rewrite E1, E2, E3, E4 in P1'.
    match type of P1 with emi2conc _ _ ?co _ _ _ _ _ ?y ?fb _ _ = _ => match type of P1' with emi2conc _ _ ?co' _ _ _ _ _ _ ?fb' _ _ = _ =>
      assert (R1 := b_emi2conc p p' c c' (c_conc sc) (c_emis sc) (c_nat_ch4 sc) (c_nat_n2o sc) SM CC CC' _ _ co co' y fb fb' (fst h) (fst h') (snd h) (snd h') R) end end.
    rewrite P1, P1' in R1. cbn in R1. unfold bp in R1.
    unfold any_conc2forc in P4, P4'. rewrite E1, E2, E5, E7 in P4'.
    assert (R2 := b_conc2forc p p' c c' (c_conc sc) (c_emis sc) (c_erf sc) (c_pert sc) SM (d_start c + Z.of_nat n) luc luc' sun sun' (snd g1) (snd g1')).
    assert (L : d_luc c = d_luc c' -> luc = luc') by (intros Q; rewrite Q in P2; congruence). specialize (R2 L R1).
    destruct (conc2forc p _ _ _ _ _ luc sun (snd g1)) as [o|]; [|discriminate P4]. destruct (conc2forc p' _ _ _ _ _ luc' sun' (snd g1')) as [o'|]; [|discriminate P4'].
    cbn [rbind] in P4, P4'. injection P4 as <- <-. injection P4' as <- <-. exact R2.
Qed.

Lemma any_frames_of {D} (dd : D -> hst A -> dict (list A) -> result (D * frame A)) (s0 : scenario A) h carbon series fs : any_add_results nan D dd s0 h carbon series = Ok fs -> exists forc em cf rest,
  forcing_frame (c_p s0) (snd h) (c_erf s0) = Ok forc /\ emission_frame (c_p s0) (c_emis s0) = Ok em /\ concentration_frame nan (c_p s0) (snd h) (c_pc s0) = Ok cf /\
  fs = [("emissions", em); ("concentrations", cf); ("forcing", forc)] ++ rest /\ wf (map (fun kv : string * frame A => (fst kv, Fr (snd kv))) fs).
Proof.
  unfold any_add_results. destruct (forcing_frame _ _ _) as [forc|]; cbn [rbind]; [|discriminate].
  destruct (emission_frame _ _) as [em|]; cbn [rbind]; [|discriminate]. destruct (concentration_frame _ _ _ _) as [cf|]; cbn [rbind]; [|discriminate]. cbv zeta.
  intros E. destruct carbon.
  - destruct (dd _ _ _) as [r|]; cbn [rbind] in E; [|discriminate]. injection E as <-. exists forc, em, cf, [("carbon cycle", snd r)]. repeat (split; [reflexivity|]).
    unfold wf, dkeys. cbn. repeat constructor; cbn; intuition discriminate.
  - injection E as <-. exists forc, em, cf, []. repeat (split; [reflexivity|]). unfold wf, dkeys. cbn. repeat constructor; cbn; intuition discriminate.
Qed.

Lemma c95 carbon carbon' r r' out out' :
  any_run nan CC year data sc th c gt t0 cc0 true carbon r = out -> any_run nan CC' year' data' sc' th' c' gt t0' cc0' true carbon' r' = out' ->
  o_exn out = None -> o_exn out' = None ->
  exists emis conc conc' forc forc',
    dget (o_results out) "emissions" = Some (Fr emis) /\ dget (o_results out') "emissions" = Some (Fr emis) /\
    dget (o_results out) "concentrations" = Some (Fr conc) /\ dget (o_results out') "concentrations" = Some (Fr conc') /\
    dget (o_results out) "forcing" = Some (Fr forc) /\ dget (o_results out') "forcing" = Some (Fr forc') /\
    fr_index conc = fr_index conc' /\ dkeys (fr_cols conc) = dkeys (fr_cols conc') /\ (forall k, unmoved p k -> dget (fr_cols conc) k = dget (fr_cols conc') k) /\
    fr_index forc = fr_index forc' /\ dkeys (fr_cols forc) = dkeys (fr_cols forc') /\
    (forall k, unaffected p p' c c' (component_of k) -> dget (fr_cols forc) k = dget (fr_cols forc') k).
Proof.
  intros E E' X X'. assert (RF := se_rf _ _ _ _ SE). assert (RF' := se_rf' _ _ _ _ SE).
  destruct (any_parts nan CC year data sc th c gt t0 cc0 carbon r out RF E X) as (s & series & fs & RY & AR & _ & _ & OR).
  destruct (any_parts nan CC' year' data' sc' th' c' gt t0' cc0' carbon' r' out' RF' E' X') as (s' & series' & fs' & RY' & AR' & _ & _ & OR').
  unfold run_years, year_list in RY, RY'. rewrite <- (Z.add_0_r (d_start c)) in RY at 1. rewrite <- (Z.add_0_r (d_start c')) in RY' at 1.
  destruct (years_trace th c _ _ _ _ RF _ 0%nat _ RY) as (_ & l & _ & _ & W1 & W2 & _). destruct (years_trace th' c' _ _ _ _ RF' _ 0%nat _ RY') as (_ & l' & _ & _ & W1' & W2' & _).
  cbn [l_h] in W1, W1'. assert (SM := se_scheme _ _ _ _ SE).
  assert (R0 : B (reset_arrays p gt (c_erf sc)) (reset_arrays p' gt (c_erf sc'))).
  { rewrite (se_erf _ _ _ _ SE). unfold reset_arrays. rewrite (years_same p p' SM). split; [reflexivity|]. split; apply alike_refl. }
  assert (DY : d_years c = d_years c').
  { unfold d_years. rewrite (se_start _ _ _ _ SE), (se_start' _ _ _ _ SE), (se_end _ _ _ _ SE), (se_end' _ _ _ _ SE), (sm_start _ _ SM), (sm_end _ _ SM). reflexivity. }
  assert (R1 := trace_blind l l' 0 _ _ _ _ W1 W1' ltac:(congruence) R0).
  destruct (any_frames_of data sc _ _ _ _ AR) as (forc & em & cf & rest & F1 & F2 & F3 & F4 & F5).
  destruct (any_frames_of data' sc' _ _ _ _ AR') as (forc' & em' & cf' & rest' & F1' & F2' & F3' & F4' & F5').
  assert (EM : em' = em).
  { rewrite (se_emis _ _ _ _ SE) in F2'. unfold emission_frame, year_column in *. rewrite (years_same p p' SM) in F2'. rewrite F2 in F2'. congruence. }
  subst em'. rewrite (se_erf _ _ _ _ SE) in F1'. rewrite (se_pc _ _ _ _ SE) in F3'.
  assert (LF := l_forcing p p' c c' SM _ _ (c_erf sc) R1). rewrite F1, F1' in LF. destruct LF as [LF1 LF2].
  assert (LC := l_concentration p p' c c' SM nan nan _ _ (c_pc sc) eq_refl R1). rewrite F3, F3' in LC. destruct LC as [LC1 LC2].
  exists em, cf, cf', forc, forc'. rewrite OR, OR', !dget_dupdate by assumption. subst fs fs'. cbn [map app fst snd dget String.eqb Ascii.eqb Bool.eqb].
  repeat (split; [reflexivity|]). split; [exact LC1|]. split; [exact (alike_keys _ _ _ LC2)|]. split; [intros k K; apply (alike_get _ _ _ k LC2 K)|].
  split; [exact LF1|]. split; [exact (alike_keys _ _ _ LF2)|]. intros k K. apply (alike_get _ _ _ k LF2 K).
Qed.
End Runs.

Lemma c95_box : forall (A : Type) (N : Num A) (T T' : Type) (nan : A) cp bp sc sc' (th : thermal A T) (th' : thermal A T') c c' gt t0 t0' cc0,
  same_emissions sc sc' c c' -> forall carbon carbon' r r' out out',
  coupled_run nan cp sc th c gt t0 cc0 true carbon r = out -> box_coupled_run nan bp sc' th' c' gt t0' true carbon' r' = out' ->
  o_exn out = None -> o_exn out' = None ->
  exists conc conc' forc forc',
    dget (o_results out) "concentrations" = Some (Fr conc) /\ dget (o_results out') "concentrations" = Some (Fr conc') /\
    dget (o_results out) "forcing" = Some (Fr forc) /\ dget (o_results out') "forcing" = Some (Fr forc') /\
    (forall k, unmoved (c_p sc) k -> dget (fr_cols conc) k = dget (fr_cols conc') k) /\
    (forall k, unaffected (c_p sc) (c_p sc') c c' (component_of k) -> dget (fr_cols forc) k = dget (fr_cols forc') k).
Proof.
  intros A N T T' nan cp bp sc sc' th th' c c' gt t0 t0' cc0 S carbon carbon' r r' out out' E E' X X'. rewrite any_default in E.
  destruct (@c95 A N T T' _ _ _ _ _ _ _ _ _ _ _ _ _ _ _ _ _ _ S _ _ _ _ _ _ E E' X X')
    as (_ & conc & conc' & forc & forc' & _ & _ & H1 & H2 & H3 & H4 & _ & _ & H5 & _ & _ & H6). exists conc, conc', forc, forc'. auto 10.
Qed.
