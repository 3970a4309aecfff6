(** * P_Files: files against dictionary (C97) *)
From Coq Require Import Lia.
From Verif Require Import PyBase PyBaseFacts Num M_Gas M_Forcing M_Carbon M_CarbonBox M_Driver M_Results M_BoxRun Spec_Driver Spec_Files P_Driver P_Driver4 P_Driver3 P_AnyCarbon.

Section Files.
Context {A : Type} {N : Num A}.
Lemma cols_ok (r : results A) ks : (forall k, In k ks -> exists l, dget r k = Some (Arr l)) ->
  exists cols, columns r ks = Ok cols /\ dkeys cols = ks /\ forall k l, In (k, l) cols -> dget r k = Some (Arr l).
Proof.
  unfold columns. induction ks as [|k ks IH]; intros H; cbn [mapM].
  - exists []. split; [reflexivity|]. split; [reflexivity|]. intros k l [].
  - destruct (H k (or_introl eq_refl)) as [l L]. destruct IH as [cols [C1 [C2 C3]]]; [intros k' I; apply H; right; exact I|].
    unfold arr_of at 1. rewrite L. cbn [rbind]. rewrite C1. cbn [rbind]. exists ((k, l) :: cols). split; [reflexivity|]. split; [cbn; unfold dkeys in C2; rewrite C2; reflexivity|].
    intros k' l' [I|I]; [inversion I; subst; exact L|apply C3; exact I].
Qed.
Lemma write_ok (c : inst A) (r : results A) : d_rf c = None -> (forall f ks k, In (f, ks) array_files -> In k ks -> exists l, dget r k = Some (Arr l)) ->
  exists o b t v, write_data c r = ([("ohc", o); ("rib", b); ("temp", t); ("sunvolc", v)], None) /\
    forall f ks, In (f, ks) array_files -> exists cols, In (f, cols) [("ohc", o); ("rib", b); ("temp", t); ("sunvolc", v)] /\ dkeys cols = ks /\
      forall k l, In (k, l) cols -> dget r k = Some (Arr l).
Proof.
  intros RF H. unfold write_data.
  destruct (cols_ok r ["OHC700"; "OHCTOT"]) as [o [O1 [O2 O3]]]; [intros k; apply (H "ohc"); left; reflexivity|].
  destruct (cols_ok r list_rib) as [b [B1 [B2 B3]]]; [intros k; apply (H "rib"); right; left; reflexivity|].
  destruct (cols_ok r list_temp) as [t [T1 [T2 T3]]]; [intros k; apply (H "temp"); right; right; left; reflexivity|].
  destruct (cols_ok r ["Solar_forcing"; "Volcanic_forcing_NH"; "Volcanic_forcing_SH"]) as [v [V1 [V2 V3]]]; [intros k; apply (H "sunvolc"); right; right; right; left; reflexivity|].
  exists o, b, t, v. rewrite O1, B1, T1. cbn [rbind]. rewrite V1, RF. split; [reflexivity|].
  intros f ks [I|[I|[I|[I|[]]]]]; inversion I; subst.
  - exists o. split; [left; reflexivity|]. auto.
  - exists b. split; [right; left; reflexivity|]. auto.
  - exists t. split; [right; right; left; reflexivity|]. auto.
  - exists v. split; [right; right; right; left; reflexivity|]. auto.
Qed.

Context {T : Type} (th : thermal A T).
Hypothesis AC : all_columns (t_names th).
Variables (nan : A) (CC : Type) (year : CC -> nat -> A -> A -> CC * A) (data : CC -> hst A -> dict (list A) -> result (CC * frame A)) (sc : scenario A) (c : inst A) (gt : dict (gas A)) (t0 : T) (cc0 : CC).
Notation RUN := (any_run nan CC year data sc th c gt t0 cc0).
Lemma c97 carbon r : d_rf c = None -> let out := RUN true carbon r in let out' := RUN false carbon r in
  o_exn out = o_exn out' /\ (o_exn out = None -> same_data carbon out out') /\ (forall k, In k (output_names (t_names th)) -> ~ In k ["emissions"; "concentrations"; "forcing"; "carbon cycle"] -> dget (o_results out) k = dget (o_results out') k).
Proof.
  intros RF. cbv zeta. unfold any_run, run. destruct AC as [DO CV].
  destruct (run_years T th c _ _ _ _ t0 _ r) as [s e] eqn:RY. destruct e as [e|].
  { cbn [o_exn o_results]. split; [reflexivity|]. split; [discriminate|]. reflexivity. }
  rewrite RF. destruct (feedback_series _ _ _ _) as [series|e].
  2:{ cbn [o_exn o_results]. split; [reflexivity|]. split; [discriminate|]. reflexivity. }
  destruct (run_years_complete th c DO _ _ _ _ _ _ _ RY) as (tr & _ & _ & CO).
  destruct (write_ok c (l_res s) RF) as [fo [fb [ft [fv [W1 W2]]]]].
  { intros f ks k I1 I2. destruct (CO k (CV f ks k I1 I2)) as (col & C1 & _). exists col. exact C1. }
  unfold write_output. unfold any_add_results.
  destruct (forcing_frame _ _ _) as [forc|e]; cbn [rbind]; [|split; [reflexivity|]; split; [discriminate|]; reflexivity].
  destruct (emission_frame _ _) as [em|e]; cbn [rbind]; [|split; [reflexivity|]; split; [discriminate|]; reflexivity].
  destruct (concentration_frame _ _ _ _) as [cf|e]; cbn [rbind]; [|split; [reflexivity|]; split; [discriminate|]; reflexivity]. cbv zeta.
  assert (AR : forall rest : dict (rval A), wf ([("emissions", Fr em); ("concentrations", Fr cf); ("forcing", Fr forc)] ++ rest) -> (rest = [] \/ exists f, rest = [("carbon cycle", Fr f)]) ->
    forall k, In k (output_names (t_names th)) -> ~ In k ["emissions"; "concentrations"; "forcing"; "carbon cycle"] ->
    dget (dupdate (l_res s) ([("emissions", Fr em); ("concentrations", Fr cf); ("forcing", Fr forc)] ++ rest)) k = dget (l_res s) k).
  { intros rest WF RS k I NI. rewrite dget_dupdate by exact WF. cbn [In] in NI.
    assert (Z : dget ([("emissions", Fr em); ("concentrations", Fr cf); ("forcing", Fr forc)] ++ rest) k = None).
    { apply dget_None_keys. destruct RS as [->|[f ->]]; cbn; tauto. }
    rewrite Z. reflexivity. }
  assert (ARR : forall (rest : dict (rval A)) k l, wf ([("emissions", Fr em); ("concentrations", Fr cf); ("forcing", Fr forc)] ++ rest) -> (rest = [] \/ exists f, rest = [("carbon cycle", Fr f)]) ->
    (exists f ks, In (f, ks) array_files /\ In k ks) -> dget (l_res s) k = Some (Arr l) ->
    dget (dupdate (l_res s) ([("emissions", Fr em); ("concentrations", Fr cf); ("forcing", Fr forc)] ++ rest)) k = Some (Arr l)).
  { intros rest k l WF RS [f [ks [I1 I2]]] D. rewrite (AR rest WF RS k); [exact D|exact (CV f ks k I1 I2)|]. intros X. clear -I1 I2 X. cbn in X.
    assert (Y : ~ In k (List.concat (map snd array_files))) by (destruct X as [X|[X|[X|[X|[]]]]]; subst k; intros Y; cbn in Y; repeat (destruct Y as [Y|Y]; [discriminate Y|]); exact Y).
    apply Y. apply in_concat. exists ks. split; [|exact I2]. apply in_map_iff. exists (f, ks). auto. }
  destruct carbon.
  - destruct (data _ _ _) as [[cc' fr]|e]; cbn [rbind snd]; [|split; [reflexivity|]; split; [discriminate|]; reflexivity].
    cbn [app write_frames short_name dget]. rewrite W1. cbn [o_exn o_results o_files map fst snd app].
    split; [reflexivity|]. split; [intros _|].
    + constructor; cbn [o_exn o_results o_files].
      * reflexivity.
      * intros k f I. cbn in I. assert (WF : wf [("emissions", Fr em); ("concentrations", Fr cf); ("forcing", Fr forc); ("carbon cycle", Fr fr)]) by (apply wf_lit; reflexivity).
        destruct I as [I|[I|[I|[I|[]]]]]; inversion I; subst; rewrite dget_dupdate by exact WF; cbn; eexists; (split; [reflexivity|]);
          intros cols J; repeat (destruct J as [J|J]; [inversion J; reflexivity|]); destruct J.
      * intros f ks I. destruct (W2 f ks I) as [cols [J [K L]]]. exists cols. split; [do 5 right; exact J|]. split; [exact K|]. intros k l M. split; [|apply L; exact M].
        apply (ARR [("carbon cycle", Fr fr)]); [apply wf_lit; reflexivity|right; eauto| |apply L; exact M].
        exists f, ks. split; [exact I|]. rewrite <- K. apply in_map_iff. exists (k, l). auto.
    + intros k I NI. apply (AR [("carbon cycle", Fr fr)]); [apply wf_lit; reflexivity|right; eauto|exact I|exact NI].
  - cbn [rbind]. cbn [app write_frames short_name dget]. rewrite W1. cbn [o_exn o_results o_files map fst snd app].
    split; [reflexivity|]. split; [intros _|].
    + constructor; cbn [o_exn o_results o_files].
      * reflexivity.
      * intros k f I. cbn in I. assert (WF : wf [("emissions", Fr em); ("concentrations", Fr cf); ("forcing", Fr forc)]) by (apply wf_lit; reflexivity).
        destruct I as [I|[I|[I|[]]]]; inversion I; subst; rewrite dget_dupdate by exact WF; cbn; eexists; (split; [reflexivity|]);
          intros cols J; repeat (destruct J as [J|J]; [inversion J; reflexivity|]); destruct J.
      * intros f ks I. destruct (W2 f ks I) as [cols [J [K L]]]. exists cols. split; [do 3 right; exact J|]. split; [exact K|]. intros k l M. split; [|apply L; exact M].
        apply (ARR []); [apply wf_lit; reflexivity|left; reflexivity| |apply L; exact M].
        exists f, ks. split; [exact I|]. rewrite <- K. apply in_map_iff. exists (k, l). auto.
    + intros k I NI. apply (AR []); [apply wf_lit; reflexivity|left; reflexivity|exact I|exact NI].
Qed.
End Files.

Lemma ud_all_columns : all_columns ud_names.
Proof.
  split; [exact ud_distinct|]. intros f ks k I J. apply smem_In. cbn in I.
  repeat (destruct I as [I|I]; [inversion I; subst; cbn in J; repeat (destruct J as [J|J]; [subst k; reflexivity|]); destruct J|]). destruct I.
Qed.
Lemma tl_missing : ~ all_columns tl_names.
Proof.
  intros [_ H]. specialize (H "rib" ["RIB_glob"; "RIB_N"; "RIB_S"] "RIB_N" (or_intror (or_introl eq_refl)) (or_intror (or_introl eq_refl))).
  apply smem_In in H. discriminate H.
Qed.
