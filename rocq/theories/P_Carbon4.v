(** * P_Carbon4: the carbon balance of the default carbon cycle (C26) and its ocean memory (C34) *)
From Coq Require Import Reals ZArith List Bool Lra Lia.
From Verif Require Import Num M_Carbon Spec_UDM Spec_Carbon P_Carbon P_Carbon2.
Import ListNotations.
Open Scope R_scope.

Definition ocean_conv (p : cc_pam R) : R := PPMKG_TO_UMOL_PER_VOL * GE_COEFF * cc_dt p.

Lemma step_fields p fnpp em h it : (it < length (h_s h))%nat -> (it < length (h_d h))%nat ->
  (it < length (r_s p))%nat -> (it < length (r_b p))%nat ->
  let h' := cc_step p fnpp em h it in
  h_d h' = (if Nat.eqb it 0 then h_d h else upd (h_d h) it (fnpp * beta_f p * ln (h_x h / preind p))) /\
  h_emp h' = (em - uptake (cc_dt p) (r_b p) (h_d h') it) / pgc /\
  h_ss1 h' = (if Nat.eqb it 0 then h_emp h' / 2 / gas_rate else h_ss1 h) /\
  h_sums h' = (if Nat.eqb it 0 then 0 else h_sums h + h_emp h / gas_rate - nth (it - 1) (h_s h) 0) /\
  h_s h' = upd (h_s h) it (cc_dt p * gas_rate / (1 + cc_dt p * gas_rate / 2) *
    (h_sums h' + h_ss1 h' + (if Nat.eqb it 0 then h_ss1 h' else h_emp h' / 2 / gas_rate - h_y h / (cc_dt p * gas_rate)))) /\
  h_y h' = h_sol h * pco2_ocean (ocean_conv p / h_ml h * ocean_memory (r_s p) (h_s h') it) /\
  h_x h' = nth it (h_s h') 0 + h_y h' / 2 + h_y h / 2 + preind p /\
  h_sol h' = h_sol h /\ h_ml h' = h_ml h.
Proof.
  intros L1 L2 L3 L4. unfold cc_step. cbv zeta. cbn [h_y h_x h_s h_emp h_d h_ss1 h_sums h_sol h_ml].
  change (@nofZ R RNum 0) with 0. change (@nln R RNum) with ln. rewrite !kdt_eq, !k_gas_eq, !pgc_eq, !cc1_eq, half_eq.
  repeat rewrite sumf_eq by (try (destruct (Nat.eqb it 0); rewrite ?upd_length); lia).
  assert (E : forall d j : R, nmul (1 / 2) d / j = d / 2 / j) by (intros; rnum; unfold Rdiv; ring).
  assert (U : forall d, nsub (nth it d 0) (nmul (cc_dt p) (sumn (fun i => nth (S i) d 0 * nth (it - 2 - i) (r_b p) 0) (it - 1)))
    = uptake (cc_dt p) (r_b p) d it) by reflexivity.
  rewrite !U. rnum. rewrite !E.
  set (d := if Nat.eqb it 0 then h_d h else _).
  set (e := (em - uptake (cc_dt p) (r_b p) d it) / pgc).
  set (s1 := if Nat.eqb it 0 then e / 2 / gas_rate else h_ss1 h).
  set (sm := if Nat.eqb it 0 then 0 else _).
  set (s2 := if Nat.eqb it 0 then s1 else _).
  set (s := upd (h_s h) it _).
  repeat split.
  - unfold partial_pressure. cbn [h_sol h_s h_ml]. unfold z_co2.
    rewrite sumz_eq by (try unfold s; rewrite ?upd_length; lia). rewrite half_eq. rnum. f_equal. f_equal. unfold ocean_conv, ocean_memory. rnum.
    unfold Rdiv. ring.
  - rnum. unfold Rdiv. ring.
Qed.

Lemma uptake_ext dt rb d d' j : (forall i, (i <= j)%nat -> nth i d 0 = nth i d' 0) -> uptake dt rb d j = uptake dt rb d' j.
Proof.
  intro H. unfold uptake. rewrite (H j) by lia. f_equal. f_equal. apply sumn_ext. intros i Hi. rewrite (H (S i)) by lia. reflexivity.
Qed.

Section Closure.
Variables (p : cc_pam R) (h0 : cc_state R) (em t : nat -> R) (n0 : nat).
Hypotheses (Hid : idtm p <> 0%nat) (Ls : length (h_s h0) = n0) (Ld : length (h_d h0) = n0)
  (Lrs : (n0 <= length (r_s p))%nat) (Lrb : (n0 <= length (r_b p))%nat) (Hy0 : h_y h0 = 0).
Notation dt := (cc_dt p).
Notation H := (cc_steps p h0 em t).
Notation E m := (em (Nat.div m (idtm p))).
Definition surp (d : list R) (m : nat) : R := (E m - uptake dt (r_b p) d m) / pgc.
Lemma surp_spec d m : Spec_Carbon.surplus p em d m = surp d m.
Proof. unfold Spec_Carbon.surplus, surp. rewrite <- dt_inr. reflexivity. Qed.

Lemma steps_len m : length (h_s (H m)) = n0 /\ length (h_d (H m)) = n0.
Proof.
  induction m as [|m IH]; [split; assumption|]. cbn [cc_steps]. cbv zeta.
  set (h' := if Nat.eqb _ 0 then _ else _).
  assert (L : length (h_s h') = n0 /\ length (h_d h') = n0) by (unfold h'; destruct (Nat.eqb _ 0); exact IH).
  unfold cc_step. cbv zeta. cbn [h_s h_d]. rewrite upd_length. split; [apply L|]. destruct (Nat.eqb m 0); rewrite ?upd_length; apply L.
Qed.

(** the state a step starts from: like [H m] up to the feedback values *)
Lemma step_at m : (m < n0)%nat -> exists hm,
  h_y hm = h_y (H m) /\ h_x hm = h_x (H m) /\ h_s hm = h_s (H m) /\ h_emp hm = h_emp (H m) /\
  h_d hm = h_d (H m) /\ h_ss1 hm = h_ss1 (H m) /\ h_sums hm = h_sums (H m) /\
  H (S m) = cc_step p (fnpp_from_temp p (t (Nat.div m (idtm p)))) (E m) hm m.
Proof.
  intro Hm. exists (if Nat.eqb (Nat.modulo m (idtm p)) 0 then update_temp_feedbacks p (H m) (t (Nat.div m (idtm p))) else H m).
  destruct (Nat.eqb _ 0) eqn:Q; repeat (split; [reflexivity|]); cbn [cc_steps]; cbv zeta; rewrite Q; reflexivity.
Qed.

Record inv (m : nat) : Prop := {
  i_emp : h_emp (H (S m)) = surp (h_d (H (S m))) m;
  i_ss1 : h_ss1 (H (S m)) = surp (h_d (H (S m))) 0 / 2 / gas_rate;
  i_sums : h_sums (H (S m)) = sumn (fun j => surp (h_d (H (S m))) j / gas_rate - nth j (h_s (H (S m))) 0) m;
  i_s : nth m (h_s (H (S m))) 0 * (1 + dt * gas_rate / 2) =
        dt * gas_rate * (h_sums (H (S m)) + h_ss1 (H (S m)) + h_emp (H (S m)) / 2 / gas_rate) - h_y (H m);
  i_x : h_x (H (S m)) = nth m (h_s (H (S m))) 0 + h_y (H (S m)) / 2 + h_y (H m) / 2 + preind p }.

Lemma gas_pos : 0 < gas_rate. Proof. unfold gas_rate. lra. Qed.
Lemma dt_pos : 0 < dt.
Proof. rewrite dt_inr. apply Rdiv_lt_0_compat; [lra|]. apply lt_0_INR. lia. Qed.

Lemma inv_all m : (m < n0)%nat -> inv m.
Proof.
  pose proof gas_pos as Hg. pose proof dt_pos as Hdt.
  assert (Hc : 1 + dt * gas_rate / 2 <> 0) by (assert (0 < dt * gas_rate) by (apply Rmult_lt_0_compat; assumption); lra).
  induction m as [|m IH]; intro Hm.
  - destruct (step_at 0 Hm) as (hm & Ey & Ex & Es & Ee & Ed & E1 & Em & St).
    destruct (steps_len 0) as [Q1 Q2].
    pose proof (step_fields p (fnpp_from_temp p (t (0 / idtm p)%nat)) (E 0%nat) hm 0) as F. rewrite <- St in F. cbn [Nat.eqb] in F.
    destruct F as (Fd & Fe & F1 & Fm & Fs & Fy & Fx & _ & _); [rewrite Es; lia|rewrite Ed; lia|lia|lia|].
    cbn [cc_steps] in Ey.
    assert (S0 : nth 0 (h_s (H 1)) 0 = dt * gas_rate / (1 + dt * gas_rate / 2) * (h_sums (H 1) + h_ss1 (H 1) + h_ss1 (H 1))).
    { rewrite Fs at 1. apply upd_nth_eq. rewrite Es. lia. }
    constructor.
    + exact Fe.
    + rewrite F1, Fe. reflexivity.
    + rewrite Fm. reflexivity.
    + rewrite S0. rewrite F1 at 2. cbn [cc_steps]. rewrite Hy0. field. split; [lra|]. 
      assert (0 < dt * gas_rate) by (apply Rmult_lt_0_compat; assumption). lra.
    + cbn [cc_steps] in *. rewrite Fx, Ey. reflexivity.
  - destruct (IH ltac:(lia)) as [Ie I1 Is _ _].
    destruct (step_at (S m) Hm) as (hm & Ey & Ex & Es & Ee & Ed & E1 & Em & St).
    destruct (steps_len (S m)) as [Q1 Q2].
    pose proof (step_fields p (fnpp_from_temp p (t (S m / idtm p)%nat)) (E (S m)) hm (S m)) as F. rewrite <- St in F.
    cbn [Nat.eqb] in F. replace (S m - 1)%nat with m in F by lia.
    destruct F as (Fd & Fe & F1 & Fm & Fs & Fy & Fx & _ & _); [rewrite Es; lia|rewrite Ed; lia|lia|lia|].
    set (h' := H (S (S m))) in *. set (h := H (S m)) in *.
    assert (Sd : forall j, (j <= m)%nat -> surp (h_d h') j = surp (h_d h) j).
    { intros j Hj. unfold surp. rewrite (uptake_ext dt (r_b p) (h_d h') (h_d h) j); [reflexivity|].
      intros i Hi. rewrite Fd. rewrite upd_nth_ne by lia. rewrite Ed. reflexivity. }
    assert (Ss : forall j, (j <= m)%nat -> nth j (h_s h') 0 = nth j (h_s h) 0).
    { intros j Hj. rewrite Fs, upd_nth_ne by lia. rewrite Es. reflexivity. }
    constructor.
    + exact Fe.
    + fold h'. rewrite F1, E1, I1, Sd by lia. reflexivity.
    + fold h'. rewrite Fm, Em, Is, Ee, Ie, Es. cbn [sumn].
      rewrite (sumn_ext (fun j => surp (h_d h') j / gas_rate - nth j (h_s h') 0) (fun j => surp (h_d h) j / gas_rate - nth j (h_s h) 0)).
      * rewrite Sd, Ss by lia. lra.
      * intros j Hj. rewrite Sd, Ss by lia. reflexivity.
    + assert (S0 : nth (S m) (h_s h') 0 = dt * gas_rate / (1 + dt * gas_rate / 2) *
         (h_sums h' + h_ss1 h' + (h_emp h' / 2 / gas_rate - h_y hm / (dt * gas_rate)))).
      { rewrite Fs at 1. apply upd_nth_eq. rewrite Es. lia. }
      fold h' h. rewrite S0, Ey. field. split; [lra|]. split; [lra|].
      assert (0 < dt * gas_rate) by (apply Rmult_lt_0_compat; assumption). lra.
    + fold h' h. rewrite Fx, Ey. reflexivity.
Qed.

Lemma closure m : (m < n0)%nat ->
  pgc * (h_x (H (S m)) - preind p)
  + dt * sumn (uptake dt (r_b p) (h_d (H (S m)))) (S m)
  + pgc * gas_rate * dt * sumn (fun j => nth j (h_s (H (S m))) 0) (S m)
  - dt * sumn (fun j => E j) (S m)
  = pgc * (dt / 2 * (surp (h_d (H (S m))) 0 - surp (h_d (H (S m))) m + gas_rate * nth m (h_s (H (S m))) 0)
           + (h_y (H (S m)) - h_y (H m)) / 2).
Proof.
  intro Hm. destruct (inv_all m Hm) as [Ie I1 Is Iss Ix]. pose proof gas_pos as Hg.
  set (h' := H (S m)) in *. set (d := h_d h') in *. set (s := fun j => nth j (h_s h') 0) in *.
  assert (Sum : forall k, sumn (fun j => surp d j / gas_rate - s j) k
      = (sumn (fun j => E j) k - sumn (uptake dt (r_b p) d) k) / pgc / gas_rate - sumn s k).
  { induction k as [|k IHk]; cbn [sumn]; [unfold pgc; field; lra|]. rewrite IHk. unfold surp. unfold pgc. field. lra. }
  change (sumn _ m) with (sumn (fun j => surp d j / gas_rate - s j) m) in Is. rewrite Sum in Is. rewrite Is, I1, Ie in Iss.
  rewrite Ix. cbn [sumn]. change (nth m (h_s h') 0) with (s m) in *.
  assert (Hpg : pgc <> 0) by (unfold pgc; lra).
  assert (Em : em (m / idtm p)%nat = pgc * surp d m + uptake dt (r_b p) d m) by (unfold surp; field; exact Hpg).
  rewrite Em.
  assert (Iss' : s m + dt * gas_rate / 2 * s m = dt * ((sumn (fun j => E j) m - sumn (uptake dt (r_b p) d) m) / pgc)
     - dt * gas_rate * sumn s m + dt / 2 * surp d 0 + dt / 2 * surp d m - h_y (H m)).
  { transitivity (s m * (1 + dt * gas_rate / 2)); [ring|]. rewrite Iss. field. split; [exact Hpg|lra]. }
  assert (X : s m = dt * ((sumn (fun j => E j) m - sumn (uptake dt (r_b p) d) m) / pgc)
     - dt * gas_rate * sumn s m + dt / 2 * surp d 0 + dt / 2 * surp d m - h_y (H m) - dt * gas_rate / 2 * s m) by lra.
  replace (s m + h_y h' / 2 + h_y (H m) / 2 + preind p - preind p) with
    (dt * ((sumn (fun j => E j) m - sumn (uptake dt (r_b p) d) m) / pgc)
     - dt * gas_rate * sumn s m + dt / 2 * surp d 0 + dt / 2 * surp d m - h_y (H m) - dt * gas_rate / 2 * s m
     + h_y h' / 2 + h_y (H m) / 2) by (rewrite <- X; ring).
  field. exact Hpg.
Qed.
End Closure.

Lemma cc_run_fst_len p : forall ins h yr, length (snd (cc_run p h yr ins)) = length ins.
Proof.
  induction ins as [|[e u] ins IH]; intros h yr; [reflexivity|]. cbn [cc_run]. destruct (co2em2conc p h yr e u) as [h1 c].
  specialize (IH h1 (S yr)). destruct (cc_run p h1 (S yr) ins) as [h2 cs]. cbn [snd length] in *. rewrite IH. reflexivity.
Qed.
Lemma mod_add_small y m i : (i < m)%nat -> Nat.modulo (y * m + i) m = i /\ Nat.div (y * m + i) m = y.
Proof.
  intro H. split.
  - rewrite Nat.add_comm, Nat.mod_add, Nat.mod_small; [reflexivity|exact H|lia].
  - rewrite Nat.add_comm, Nat.div_add, Nat.div_small; [reflexivity|exact H|lia].
Qed.
Lemma year_steps p h0 em t y : idtm p <> 0%nat -> forall i, (i < idtm p)%nat ->
  fold_left (cc_step p (fnpp_from_temp p (t y)) (em y)) (seq (y * idtm p) (S i))
    (update_temp_feedbacks p (cc_steps p h0 em t (y * idtm p)) (t y)) = cc_steps p h0 em t (y * idtm p + S i).
Proof.
  intros Hid i. induction i as [|i IH]; intro Hi.
  - cbn [seq fold_left]. rewrite Nat.add_1_r. cbn [cc_steps]. cbv zeta.
    destruct (mod_add_small y (idtm p) 0 Hi) as [M D]. rewrite Nat.add_0_r in M, D. rewrite M, D. reflexivity.
  - rewrite seq_S, fold_left_app. rewrite IH by lia. cbn [fold_left].
    replace (y * idtm p + S (S i))%nat with (S (y * idtm p + S i)) by lia. cbn [cc_steps]. cbv zeta.
    destruct (mod_add_small y (idtm p) (S i) Hi) as [M D]. rewrite M, D. reflexivity.
Qed.
Lemma call_steps p h0 em t y : idtm p <> 0%nat ->
  fst (co2em2conc p (cc_steps p h0 em t (y * idtm p)) y (em y) (t y)) = cc_steps p h0 em t (S y * idtm p).
Proof.
  intro Hid. unfold co2em2conc. cbv zeta. cbn [fst]. pose proof (year_steps p h0 em t y Hid (idtm p - 1) ltac:(lia)) as Q.
  replace (S (idtm p - 1)) with (idtm p) in Q by lia. rewrite Q. f_equal. lia.
Qed.
Lemma run_steps p h0 em t : idtm p <> 0%nat -> forall ins yr,
  (forall i e u, nth_error ins i = Some (e, u) -> em (yr + i)%nat = e /\ t (yr + i)%nat = u) ->
  fst (cc_run p (cc_steps p h0 em t (yr * idtm p)) yr ins) = cc_steps p h0 em t ((yr + length ins) * idtm p) /\
  forall i, (i < length ins)%nat -> nth i (snd (cc_run p (cc_steps p h0 em t (yr * idtm p)) yr ins)) 0
    = h_x (cc_steps p h0 em t ((yr + S i) * idtm p)).
Proof.
  intros Hid. induction ins as [|[e u] ins IH]; intros yr Hins.
  - cbn [cc_run fst length]. rewrite Nat.add_0_r. split; [reflexivity|]. intros i Hi. lia.
  - destruct (Hins 0%nat e u eq_refl) as [He Hu]. rewrite Nat.add_0_r in He, Hu. cbn [cc_run].
    pose proof (call_steps p h0 em t yr Hid) as C. rewrite He, Hu in C.
    assert (Cx : snd (co2em2conc p (cc_steps p h0 em t (yr * idtm p)) yr e u) = h_x (fst (co2em2conc p (cc_steps p h0 em t (yr * idtm p)) yr e u)))
      by reflexivity.
    destruct (co2em2conc p _ yr e u) as [h1 c]. cbn [fst snd] in C, Cx. subst h1 c.
    destruct (IH (S yr)) as [Ia Ib].
    { intros i e' u' Hi. specialize (Hins (S i) e' u' Hi). replace (S yr + i)%nat with (yr + S i)%nat by lia. exact Hins. }
    destruct (cc_run p (cc_steps p h0 em t (S yr * idtm p)) (S yr) ins) as [h2 cs]. cbn [fst snd length] in *.
    split; [rewrite Ia; f_equal; lia|]. intros [|i] Hi; cbn [nth]; [f_equal; f_equal; lia|]. rewrite Ib by lia. f_equal. f_equal. lia.
Qed.

Lemma total_sumn l : total l = sumn (fun j => nth j l 0) (length l).
Proof.
  rewrite <- nsum_sumn. unfold nsum. change (@nofZ R RNum 0) with 0. change (@nadd R RNum) with Rplus.
  assert (G : forall l a, fold_left Rplus l a = a + total l).
  { clear. induction l as [|x l IH]; intro a; cbn [fold_left total]; [lra|]. rewrite IH. lra. }
  rewrite G. lra.
Qed.
Lemma sumn_add_range f a b : sumn f (a + b) = sumn f a + sumn (fun i => f (a + i)%nat) b.
Proof. induction b as [|b IH]; [rewrite Nat.add_0_r; cbn [sumn]; lra|]. rewrite Nat.add_succ_r. cbn [sumn]. rewrite IH. lra. Qed.
Lemma sumn_years f m Y : sumn (fun y => sumn (fun i => f (m * y + i)%nat) m) Y = sumn f (Y * m).
Proof.
  induction Y as [|Y IH]; [reflexivity|]. cbn [sumn]. rewrite IH. replace (S Y * m)%nat with (Y * m + m)%nat by lia.
  rewrite sumn_add_range. f_equal. apply sumn_ext. intros i _. f_equal. lia.
Qed.
Lemma nth_skipn_ {B} (l : list B) a j d : nth j (skipn a l) d = nth (a + j) l d.
Proof. revert a. induction l as [|x l IH]; intros [|a]; try reflexivity; [destruct j; destruct a; reflexivity|]. cbn [skipn Nat.add nth]. apply IH. Qed.
Lemma slice_sum p l y : (idtm p * y + idtm p <= length l)%nat ->
  nsum (year_slice p l y) = sumn (fun i => nth (idtm p * y + i) l 0) (idtm p).
Proof.
  intro H. unfold year_slice. rewrite nsum_sumn. rewrite firstn_length_le by (rewrite skipn_length; lia).
  apply sumn_ext. intros i Hi. rewrite nth_firstn by exact Hi. apply nth_skipn_.
Qed.
Lemma tab_nth {B} n (f : nat -> B) i d : (i < n)%nat -> nth i (tab n f) d = f i.
Proof. intro H. unfold tab. rewrite (nth_indep _ d (f 0%nat)) by (rewrite map_length, seq_length; exact H). rewrite map_nth, seq_nth by exact H. reflexivity. Qed.
Lemma tab_len {B} n (f : nat -> B) : length (tab n f) = n.
Proof. unfold tab. rewrite map_length. apply seq_length. Qed.
Lemma sumn_scale c f n : sumn (fun i => c * f i) n = c * sumn f n.
Proof. induction n as [|n IH]; cbn [sumn]; [lra|]. rewrite IH. lra. Qed.
Lemma total_firstn_tab Y n f : (Y <= n)%nat -> total (firstn Y (tab n f)) = sumn f Y.
Proof.
  intro H. rewrite total_sumn, firstn_length_le by (rewrite tab_len; exact H). apply sumn_ext. intros j Hj.
  rewrite nth_firstn by exact Hj. apply tab_nth. lia.
Qed.

Lemma bio_total p d Y : (Y <= years_tot p)%nat -> length d = (idtm p * years_tot p)%nat -> (length d <= length (r_b p))%nat -> idtm p <> 0%nat ->
  total (firstn Y (biosphere_flux p (ffer_series p d))) = cc_dt p * sumn (uptake (cc_dt p) (r_b p) d) (Y * idtm p).
Proof.
  intros HY Hd Hr Hid. unfold biosphere_flux. rewrite total_firstn_tab by exact HY. rewrite <- sumn_years, <- sumn_scale. apply sumn_ext. intros y Hy.
  assert (idtm p * y + idtm p <= idtm p * years_tot p)%nat by (replace (idtm p * y + idtm p)%nat with (idtm p * S y)%nat by lia; apply Nat.mul_le_mono_l; lia).
  rewrite slice_sum by (unfold ffer_series; rewrite tab_len; lia). rewrite dt_inr. rnum. rewrite <- INR_IZR_INZ.
  assert (INR (idtm p) <> 0) by (apply not_0_INR; exact Hid).
  transitivity (1 / INR (idtm p) * sumn (fun i => nth (idtm p * y + i) (ffer_series p d) 0) (idtm p)); [field; assumption|].
  f_equal. apply sumn_ext. intros i Hi. unfold ffer_series. rewrite tab_nth by lia. rewrite sumf_eq by lia.
  change (@nofZ R RNum 0) with 0. rewrite <- dt_inr. reflexivity.
Qed.
Lemma ocean_total p h Y : (Y <= years_tot p)%nat -> length (h_s h) = (idtm p * years_tot p)%nat -> idtm p <> 0%nat ->
  total (firstn Y (ocean_flux p h)) = pgc * gas_rate * cc_dt p * sumn (fun j => nth j (h_s h) 0) (Y * idtm p).
Proof.
  intros HY Hd Hid. unfold ocean_flux. rewrite total_firstn_tab by exact HY. rewrite <- sumn_years, <- sumn_scale. apply sumn_ext. intros y Hy.
  assert (idtm p * y + idtm p <= idtm p * years_tot p)%nat by (replace (idtm p * y + idtm p)%nat with (idtm p * S y)%nat by lia; apply Nat.mul_le_mono_l; lia).
  rewrite slice_sum by lia. rewrite pgc_eq, dt_inr. rnum. rewrite <- INR_IZR_INZ.
  assert (INR (idtm p) <> 0) by (apply not_0_INR; exact Hid).
  rewrite <- k_gas_eq. unfold k_gas. rnum. field. assumption.
Qed.

Lemma c26 p ins : idtm p <> 0%nat -> ins <> [] -> (length ins <= years_tot p)%nat ->
  length (r_s p) = (idtm p * years_tot p)%nat -> length (r_b p) = (idtm p * years_tot p)%nat ->
  let em y := fst (nth y ins (0, 0)) in let t y := snd (nth y ins (0, 0)) in
  let h := fst (cc_run p (cc_init p) 0 ins) in
  let Y := length ins in let last := (Y * idtm p - 1)%nat in
  pgc * (List.last (snd (cc_run p (cc_init p) 0 ins)) 0 - preind p)
  + total (firstn Y (biosphere_flux p (ffer_series p (h_d h)))) + total (firstn Y (ocean_flux p h)) - total (map fst ins)
  = pgc * (1 / INR (idtm p) / 2 * (Spec_Carbon.surplus p em (h_d h) 0 - Spec_Carbon.surplus p em (h_d h) last + gas_rate * nth last (h_s h) 0)
           + (h_y h - h_y (cc_steps p (cc_init p) em t last)) / 2).
Proof.
  intros Hid Hne HY L1 L2 em t. cbv zeta. 
  destruct (run_steps p (cc_init p) em t Hid ins 0) as [Ra Rb].
  { intros i e u Hi. cbn [Nat.add]. unfold em, t. rewrite (nth_error_nth ins i (0, 0) Hi). split; reflexivity. }
  change (cc_steps p (cc_init p) em t (0 * idtm p)) with (cc_init p) in *. cbn [Nat.add] in Ra, Rb.
  assert (Ylen : (0 < length ins)%nat) by (destruct ins; [congruence|cbn [length]; lia]).
  assert (Lst : List.last (snd (cc_run p (cc_init p) 0 ins)) 0 = h_x (cc_steps p (cc_init p) em t (length ins * idtm p))).
  { pose proof (cc_run_fst_len p ins (cc_init p) 0) as Ln. specialize (Rb (length ins - 1)%nat ltac:(lia)).
    replace (S (length ins - 1)) with (length ins) in Rb by lia. rewrite <- Rb.
    revert Ln. generalize (snd (cc_run p (cc_init p) 0 ins)). intros cs Ln. rewrite <- Ln. clear.
    induction cs as [|c cs IH]; [reflexivity|]. destruct cs as [|c' cs]; [reflexivity|].
    change (List.last (c :: c' :: cs) 0) with (List.last (c' :: cs) 0). rewrite IH. cbn [length nth Nat.sub]. rewrite Nat.sub_0_r. reflexivity. }
  rewrite Ra, Lst. set (n := (length ins * idtm p)%nat).
  assert (Hn : (0 < n)%nat) by (apply Nat.mul_pos_pos; lia).
  assert (Hn' : (n <= idtm p * years_tot p)%nat) by (unfold n; rewrite (Nat.mul_comm (idtm p)); apply Nat.mul_le_mono_r; exact HY).
  assert (Lz : length (cc_zeros p) = (idtm p * years_tot p)%nat) by (unfold cc_zeros; apply tab_len).
  destruct (steps_len p (cc_init p) em t (idtm p * years_tot p) Lz Lz n) as [Q1 Q2].
  pose proof (closure p (cc_init p) em t (idtm p * years_tot p) Hid Lz Lz ltac:(lia) ltac:(lia) eq_refl (n - 1) ltac:(lia)) as C.
  replace (S (n - 1)) with n in C by lia.
  rewrite bio_total by (try assumption; lia). rewrite ocean_total by assumption. fold n.
  assert (Em : total (map fst ins) = cc_dt p * sumn (fun j => em (Nat.div j (idtm p))) n).
  { unfold n. rewrite <- sumn_years, <- sumn_scale, total_sumn, map_length. apply sumn_ext. intros y Hy.
    transitivity (em y).
    - unfold em. change 0 with (fst (0, 0)) at 1. apply map_nth.
    - rewrite (sumn_ext _ (fun _ => em y)).
      + assert (G : forall c k, sumn (fun _ => c) k = INR k * c).
        { intros c k. induction k as [|k IH]; [cbn; lra|]. cbn [sumn]. rewrite IH, S_INR. lra. }
        rewrite G, dt_inr. field. apply not_0_INR. exact Hid.
      + intros i Hi. rewrite Nat.mul_comm. f_equal. apply mod_add_small. exact Hi. }
  rewrite Em, !surp_spec, <- dt_inr. exact C.
Qed.

Lemma closure_step p em t m : idtm p <> 0%nat -> (m < idtm p * years_tot p)%nat ->
  (idtm p * years_tot p <= length (r_s p))%nat -> (idtm p * years_tot p <= length (r_b p))%nat ->
  let h := cc_steps p (cc_init p) em t (S m) in
  let dt := 1 / INR (idtm p) in
  pgc * (h_x h - preind p) + dt * sumn (uptake dt (r_b p) (h_d h)) (S m)
  + pgc * gas_rate * dt * sumn (fun j => nth j (h_s h) 0) (S m) - dt * sumn (fun j => em (Nat.div j (idtm p))) (S m)
  = pgc * (dt / 2 * (Spec_Carbon.surplus p em (h_d h) 0 - Spec_Carbon.surplus p em (h_d h) m + gas_rate * nth m (h_s h) 0)
           + (h_y h - h_y (cc_steps p (cc_init p) em t m)) / 2).
Proof.
  intros Hid Hm L1 L2. cbv zeta. rewrite !surp_spec, <- dt_inr.
  assert (Lz : length (cc_zeros p) = (idtm p * years_tot p)%nat) by (unfold cc_zeros; apply tab_len).
  exact (closure p (cc_init p) em t (idtm p * years_tot p) Hid Lz Lz L1 L2 eq_refl m Hm).
Qed.
