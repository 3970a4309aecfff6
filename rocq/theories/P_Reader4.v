(** * P_Reader4: heat content and heat uptake over the reals; distinctness of the published names *)
From Coq Require Import Reals Lra Lia.
From Verif Require Import PyBase PyBaseFacts Num M_Gas M_Driver M_Reader Spec_Reader P_Reader P_Reader2.
Open Scope R_scope.

Lemma scaled_iff (c : R) (h : R -> R) l ts : (forall x, h x = c * x) ->
  ts = map h l <-> List.length ts = List.length l /\ forall i, nth i ts 0 = c * nth i l 0.
Proof.
  intros H. assert (Z : h 0 = 0) by (rewrite H; ring). split.
  - intros ->. rewrite map_length. split; [reflexivity|]. intros i. rewrite <- Z at 1. rewrite map_nth. apply H.
  - intros [L G]. apply nth_ext_R; [rewrite map_length; exact L|]. intros i. rewrite G. rewrite <- Z at 2. rewrite map_nth. symmetry. apply H.
Qed.
Lemma c72_heat_content_R nys nye (r : results R) u v g ys ts unit : In (v, g) heat_content_variables ->
  get_variable_timeseries nys nye r v u = Ok (ys, ts, unit) <->
  ys = window nys nye /\ unit = "ZJ" /\ exists l, in_array r g l /\ List.length ts = List.length l /\ forall i, nth i ts 0 = 10 * nth i l 0.
Proof.
  intros I. rewrite (c72_heat_content nys nye r u v g ys ts unit I).
  assert (E : forall l, ts = map (fun x => nmul x (nofZ 10)) l <-> List.length ts = List.length l /\ forall i, nth i ts 0 = 10 * nth i l 0).
  { intros l. apply scaled_iff. intros x. rnum. ring. }
  split; intros [A [B [l [C D]]]]; (split; [exact A|split; [exact B|]]); exists l; (split; [exact C|]); apply E; exact D.
Qed.
Lemma c72_heat_uptake_R nys nye (r : results R) u ys ts unit :
  get_variable_timeseries nys nye r "Heat Uptake" u = Ok (ys, ts, unit) <->
  ys = window nys nye /\ unit = "ZJ / yr" /\ exists l, in_array r "RIB_glob" l /\ List.length ts = List.length l /\
    forall i, nth i ts 0 = (361 * 10 ^ 12) * (86400 * 365) / 10 ^ 21 * nth i l 0.
Proof.
  rewrite (c72_heat_uptake nys nye r u ys ts unit).
  assert (E : forall l, ts = map rib_to_zj l <-> List.length ts = List.length l /\ forall i, nth i ts 0 = (361 * 10 ^ 12) * (86400 * 365) / 10 ^ 21 * nth i l 0).
  { intros l. apply scaled_iff. intros x. unfold rib_to_zj, OCEAN_AREA. rnum. rewrite mult_IZR. lra. }
  split; intros [A [B [l [C D]]]]; (split; [exact A|split; [exact B|]]); exists l; (split; [exact C|]); apply E; exact D.
Qed.
Lemma c72_distinct : NoDup published /\ NoDup (map snd concentration_variables) /\ NoDup (map snd emission_variables) /\
  NoDup (map fst published_fgases ++ map fst published_montreal ++ six_others).
Proof. repeat apply conj; apply nodupb_NoDup; vm_compute; reflexivity. Qed.

(** the summary series without series of volcanoes and sun *)
Lemma c72_direct (f : frame R) d (a b : R) ys ts : forc_common f "Total_forcing+sunvolc" d (Scalar a) (Scalar b) = Ok (ys, ts) <->
  dget (fr_cols f) "Year" = Some ys /\ exists tot, dget (fr_cols f) "Total_forcing" = Some tot /\ List.length ts = List.length tot /\
  forall i, (i < List.length tot)%nat -> nth i ts 0%R = (nth i tot 0 + a + b)%R.
Proof.
  unfold forc_common, fr_col. destruct (dget (fr_cols f) "Year") as [y|]; cbn [key rbind]; [|split; [discriminate | intros [H _]; discriminate]].
  cbv zeta. change (smem "Total_forcing+sunvolc" forc_sums) with false. change (smem "Total_forcing+sunvolc" ["Fgas"; "GHG"]) with false.
  change (String.eqb "Total_forcing+sunvolc" "Total_forcing+sunvolc") with true. cbv iota.
  destruct (dget (fr_cols f) "Total_forcing") as [tot|]; cbn [key rbind plus]; [|split; [discriminate | intros (_ & tot & H & _); discriminate]].
  assert (map (fun t => t + b)%R (map (fun t => t + a)%R tot) = map (fun t => t + a + b)%R tot) as M by (rewrite map_map; reflexivity).
  change (@nadd R _) with Rplus. rewrite M. split.
  - intros H. inversion H; subst. split; [reflexivity|]. exists tot. split; [reflexivity|]. split; [apply map_length|]. intros i L.
    rewrite (nth_indep _ _ ((fun t => t + a + b)%R 0%R)) by (now rewrite map_length). now rewrite (map_nth (fun t => t + a + b)%R).
  - intros (E & tot' & E' & L & V). inversion E; subst. inversion E'; subst. f_equal. f_equal. apply (nth_ext _ _ 0%R 0%R); [now rewrite map_length|].
    intros i I. rewrite map_length in I. rewrite V by exact I. rewrite (nth_indep _ _ ((fun t => t + a + b)%R 0%R)) by (now rewrite map_length). now rewrite (map_nth (fun t => t + a + b)%R).
Qed.
