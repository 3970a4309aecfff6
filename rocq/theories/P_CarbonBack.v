(** * P_CarbonBack: bisection and back-calculation *)
From Coq Require Import Reals ZArith List Bool Lra Lia.
From Verif Require Import Num M_Carbon M_CarbonBack Spec_Carbon P_Carbon.
Import ListNotations.

(** ** What is left behind by the bisection, for any arithmetic *)
Section State.
Context {A : Type} {N : Num A}.
Variable S : Type.
Variable call : S -> A -> S * A.
Variable restore : S -> S -> S.
Variable Good : S -> Prop.
Variable s0 : S.
Hypothesis Hfirst : forall g, Good (fst (call s0 g)).
Hypothesis Hreplay : forall s g, Good s -> call (restore s0 s) g = call s0 g.

Lemma bisect_state target rtol n : forall s mx mn g est done, Good s -> call s0 g = (s, est) ->
  let '(g', s', done') := bisect S call restore n s0 s target rtol mx mn g est done in
  (done <= done' <= done + n)%nat /\ s' = fst (call s0 g') /\
  (nltb rtol (ndiv (nabs (nsub target (snd (call s0 g')))) target) = false \/ done' = (done + n)%nat).
Proof.
  induction n as [|n IH]; intros s mx mn g est done Hg Hc; cbn [bisect].
  - destruct (nltb rtol _) eqn:E; cbn [negb].
    + split; [lia|]. rewrite Hc. split; [reflexivity|right; lia].
    + split; [lia|]. rewrite Hc. split; [reflexivity|left; exact E].
  - destruct (nltb rtol (ndiv (nabs (nsub target est)) target)) eqn:E; cbn [negb].
    2:{ split; [lia|]. rewrite Hc. split; [reflexivity|left; exact E]. }
    destruct (if nltb target est then _ else _) as [[mx' mn'] g'] eqn:Eb.
    destruct (call (restore s0 s) g') as [s' est'] eqn:Ec.
    rewrite Hreplay in Ec by exact Hg.
    assert (Hg' : Good s') by (pose proof (Hfirst g') as H; rewrite Ec in H; exact H).
    specialize (IH s' mx' mn' g' est' (Datatypes.S done) Hg' Ec).
    destruct (bisect S call restore n s0 s' target rtol mx' mn' g' est' (Datatypes.S done)) as [[g'' s''] done''].
    destruct IH as (I1 & I2 & I3). split; [lia|]. split; [exact I2|]. destruct I3 as [I3|I3]; [left; exact I3|right; lia].
Qed.

Lemma guess_state target mxmn rtol n :
  let '(g, s, done) := guess_emissions S call restore s0 target mxmn rtol n in
  (done <= n)%nat /\ s = fst (call s0 g) /\
  (nltb rtol (ndiv (nabs (nsub target (snd (call s0 g)))) target) = false \/ done = n).
Proof.
  unfold guess_emissions. destruct mxmn as [mx mn].
  destruct (call s0 (ndiv (nadd mn mx) (nofZ 2))) as [s est] eqn:Ec.
  pose proof (bisect_state target rtol n s mx mn (ndiv (nadd mn mx) (nofZ 2)) est 0) as H.
  assert (Hg : Good s) by (pose proof (Hfirst (ndiv (nadd mn mx) (nofZ 2))) as H0; rewrite Ec in H0; exact H0).
  specialize (H Hg Ec). destruct (bisect _ _ _ _ _ _ _ _ _ _ _ _ _) as [[g' s'] done'].
  destruct H as (H1 & H2 & H3). split; [lia|]. split; [exact H2|]. destruct H3 as [H3|H3]; [left; exact H3|right; lia].
Qed.
End State.

(** ** Accuracy over the reals *)
Section Accuracy.
Open Scope R_scope.
Variable S : Type.
Variable call : S -> R -> S * R.
Variable restore : S -> S -> S.
Variable Good : S -> Prop.
Variable s0 : S.
Hypothesis Hfirst : forall g, Good (fst (call s0 g)).
Hypothesis Hreplay : forall s g, Good s -> call (restore s0 s) g = call s0 g.
Let f (g : R) : R := snd (call s0 g).
Variables (target rtol MX MN : R).
Hypothesis Hrtol : 0 <= rtol.
Hypothesis Hmono : forall x y, MN <= x -> x <= y -> y <= MX -> f x <= f y.

Lemma bisect_acc n : forall s mx mn g est done, Good s -> call s0 g = (s, est) ->
  MN <= mn -> mx <= MX -> mn <= mx -> g = (mn + mx) / 2 ->
  (forall e, MN <= e <= MX -> f e = target -> mn <= e <= mx) ->
  let '(g', s', done') := bisect S call restore n s0 s target rtol mx mn g est done in
  MN <= g' <= MX /\
  (forall e, MN <= e <= MX -> f e = target -> Rabs (g' - e) <= (mx - mn) / 2 ^ (done' - done + 1)).
Proof.
  induction n as [|n IH]; intros s mx mn g est done Hg Hc H1 H2 H3 H4 H5; cbn [bisect].
  - assert (G : MN <= g <= MX /\ (forall e, MN <= e <= MX -> f e = target -> Rabs (g - e) <= (mx - mn) / 2 ^ (done - done + 1))).
    { split; [lra|]. intros e He Hf. specialize (H5 e He Hf). replace (done - done + 1)%nat with 1%nat by lia.
      rewrite pow_1. apply Rabs_le. lra. }
    destruct (nltb rtol _); exact G.
  - destruct (nltb rtol (ndiv (nabs (nsub target est)) target)) eqn:E; cbn [negb].
    2:{ split; [lra|]. intros e He Hf. specialize (H5 e He Hf). replace (done - done + 1)%nat with 1%nat by lia.
        rewrite pow_1. apply Rabs_le. lra. }
    assert (Est : f g = est) by (unfold f; rewrite Hc; reflexivity).
    assert (Hne : est <> target).
    { intro K. rewrite K in E. rnum. destruct (Rlt_dec rtol _) as [L|L]; [|discriminate].
      replace (target - target) with 0 in L by ring. rewrite Rabs_R0 in L. unfold Rdiv in L. rewrite Rmult_0_l in L. lra. }
    destruct (nltb target est) eqn:Eb.
    + rnum. destruct (Rlt_dec target est) as [L|L]; [|discriminate].
      destruct (call (restore s0 s) ((g + mn) / 2)) as [s' est'] eqn:Ec.
      rewrite Hreplay in Ec by exact Hg.
      assert (Hg' : Good s') by (pose proof (Hfirst ((g + mn) / 2)) as H; rewrite Ec in H; exact H).
      specialize (IH s' g mn ((g + mn) / 2) est' (Datatypes.S done) Hg' Ec).
      assert (Hs : forall e, MN <= e <= MX -> f e = target -> mn <= e <= g).
      { intros e He Hf. destruct (H5 e He Hf) as [K1 K2]. split; [exact K1|]. destruct (Rle_dec e g) as [K|K]; [exact K|].
        pose proof (Hmono g e ltac:(lra) ltac:(lra) ltac:(lra)) as Q. rewrite Hf, Est in Q. lra. }
      specialize (IH ltac:(lra) ltac:(lra) ltac:(lra) ltac:(lra) Hs).
      pose proof (bisect_state S call restore Good s0 Hfirst Hreplay target rtol n s' g mn ((g + mn) / 2) est' (Datatypes.S done) Hg' Ec) as B.
      destruct (bisect S call restore n s0 s' target rtol g mn ((g + mn) / 2) est' (Datatypes.S done)) as [[g'' s''] done''].
      destruct IH as [I1 I2]. destruct B as [[B1 _] _]. split; [exact I1|]. intros e He Hf. eapply Rle_trans; [apply I2; assumption|].
      right. replace (done'' - done + 1)%nat with (Datatypes.S (done'' - Datatypes.S done + 1)) by lia.
      cbn [pow]. rewrite H4. field. apply pow_nonzero. lra.
    + rnum. destruct (Rlt_dec target est) as [L|L]; [discriminate|].
      destruct (call (restore s0 s) ((g + mx) / 2)) as [s' est'] eqn:Ec.
      rewrite Hreplay in Ec by exact Hg.
      assert (Hg' : Good s') by (pose proof (Hfirst ((g + mx) / 2)) as H; rewrite Ec in H; exact H).
      specialize (IH s' mx g ((g + mx) / 2) est' (Datatypes.S done) Hg' Ec).
      assert (Hs : forall e, MN <= e <= MX -> f e = target -> g <= e <= mx).
      { intros e He Hf. destruct (H5 e He Hf) as [K1 K2]. split; [|exact K2]. destruct (Rle_dec g e) as [K|K]; [exact K|].
        pose proof (Hmono e g ltac:(lra) ltac:(lra) ltac:(lra)) as Q. rewrite Hf, Est in Q. lra. }
      specialize (IH ltac:(lra) ltac:(lra) ltac:(lra) ltac:(lra) Hs).
      pose proof (bisect_state S call restore Good s0 Hfirst Hreplay target rtol n s' mx g ((g + mx) / 2) est' (Datatypes.S done) Hg' Ec) as B.
      destruct (bisect S call restore n s0 s' target rtol mx g ((g + mx) / 2) est' (Datatypes.S done)) as [[g'' s''] done''].
      destruct IH as [I1 I2]. destruct B as [[B1 _] _]. split; [exact I1|]. intros e He Hf. eapply Rle_trans; [apply I2; assumption|].
      right. replace (done'' - done + 1)%nat with (Datatypes.S (done'' - Datatypes.S done + 1)) by lia.
      cbn [pow]. rewrite H4. field. apply pow_nonzero. lra.
Qed.

Lemma guess_acc n : MN <= MX ->
  let '(g, s, done) := guess_emissions S call restore s0 target (MX, MN) rtol n in
  (done <= n)%nat /\ MN <= g <= MX /\ s = fst (call s0 g) /\
  (Rabs (target - f g) / target <= rtol \/ done = n) /\
  (forall e, MN <= e <= MX -> f e = target -> Rabs (g - e) <= (MX - MN) / 2 ^ (done + 1)).
Proof.
  intro HM.
  pose proof (guess_state S call restore Good s0 Hfirst Hreplay target (MX, MN) rtol n) as G.
  assert (B : let '(g, s, done) := guess_emissions S call restore s0 target (MX, MN) rtol n in
    MN <= g <= MX /\ (forall e, MN <= e <= MX -> f e = target -> Rabs (g - e) <= (MX - MN) / 2 ^ (done - 0 + 1))).
  { unfold guess_emissions. destruct (call s0 (ndiv (nadd MN MX) (nofZ 2))) as [s est] eqn:Ec.
    assert (Hg : Good s) by (pose proof (Hfirst (ndiv (nadd MN MX) (nofZ 2))) as H0; rewrite Ec in H0; exact H0).
    apply bisect_acc; try assumption; try lra.
    - rnum. reflexivity.
    - intros; assumption. }
  destruct (guess_emissions S call restore s0 target (MX, MN) rtol n) as [[g s] done].
  destruct G as (G1 & G2 & G3), B as [B1 B2]. split; [exact G1|]. split; [exact B1|]. split; [exact G2|].
  split.
  - destruct G3 as [G3|G3]; [left|right; exact G3]. rnum. fold (f g) in G3.
    destruct (Rlt_dec rtol (Rabs (target - f g) / target)); [discriminate|lra].
  - replace (done + 1)%nat with (done - 0 + 1)%nat by lia. exact B2.
Qed.
End Accuracy.

(** ** Default carbon cycle *)
Section Default.
Context {A : Type} {N : Num A}.
Variable p : cc_pam A.

Definition year_good (h : cc_state A) (yr : nat) (s : cc_state A) : Prop :=
  agree (yr * idtm p) (yr * idtm p + idtm p) s h.

Lemma default_guess_state h yr t target mxmn rtol n :
  let '(g, s, done) := guess_emissions (cc_state A) (fun s em => co2em2conc p s yr em t)
                         (fun s0 s => set_hold s (get_hold s0)) h target mxmn rtol n in
  (done <= n)%nat /\ s = fst (co2em2conc p h yr g t) /\
  (nltb rtol (ndiv (nabs (nsub target (snd (co2em2conc p h yr g t)))) target) = false \/ done = n).
Proof.
  apply (guess_state (cc_state A) (fun s em => co2em2conc p s yr em t) (fun s0 s => set_hold s (get_hold s0)) (year_good h yr) h).
  - intro g. apply call_frame.
  - intros s g Hg. apply call_agree. exact Hg.
Qed.

(** Running the back-calculated emissions forward gives the same object and matches each target. *)
Lemma back_forward series : forall h i prev widths,
  let '(h', res) := back_years p h i prev widths series in
  let '(h2, cs) := cc_run p h i (combine (map fst res) (map snd series)) in
  h2 = h' /\ (length res = length series)%nat /\
  Forall2 (fun td c => nltb RTOL (ndiv (nabs (nsub (fst td) c)) (fst td)) = false \/ snd td = MAXIT)
    (combine (map fst series) (map snd res)) cs.
Proof.
  induction series as [|[c t] r IH]; intros h i prev widths; cbn [back_years].
  - cbn. repeat split. constructor.
  - pose proof (default_guess_state h i t c (initial_max_min_guess c prev (nth (i * idtm p) widths (nofZ 0))) RTOL MAXIT) as G.
    destruct (guess_emissions _ _ _ _ _ _ _ _) as [[em h1] done]. destruct G as (_ & G2 & G3).
    specialize (IH h1 (S i) c widths). destruct (back_years p h1 (S i) c widths r) as [h2 res] eqn:Eb.
    cbn [map fst snd combine cc_run]. destruct (co2em2conc p h i em t) as [h1' x] eqn:Ec. cbn [fst snd] in G2, G3. subst h1.
    destruct (cc_run p h1' (S i) (combine (map fst res) (map snd r))) as [h3 cs]. destruct IH as (I1 & I2 & I3).
    split; [exact I1|]. split; [cbn [length]; rewrite I2; reflexivity|]. constructor; [exact G3|exact I3].
Qed.
End Default.

(** The default carbon cycle in one year, when its response does not decrease with emissions. *)
Lemma default_guess_acc (p : cc_pam R) h yr t target rtol MX MN n : (0 <= rtol)%R -> (MN <= MX)%R ->
  (forall x y, MN <= x -> x <= y -> y <= MX -> snd (co2em2conc p h yr x t) <= snd (co2em2conc p h yr y t))%R ->
  let '(g, s, done) := guess_emissions (cc_state R) (fun s em => co2em2conc p s yr em t)
                         (fun s0 s => set_hold s (get_hold s0)) h target (MX, MN) rtol n in
  (done <= n)%nat /\ (MN <= g <= MX)%R /\ s = fst (co2em2conc p h yr g t) /\
  (Rabs (target - snd (co2em2conc p h yr g t)) / target <= rtol \/ done = n)%R /\
  (forall e, MN <= e <= MX -> snd (co2em2conc p h yr e t) = target -> Rabs (g - e) <= (MX - MN) / 2 ^ (done + 1))%R.
Proof.
  intros Hr HM Hmono.
  apply (guess_acc (cc_state R) (fun s em => co2em2conc p s yr em t) (fun s0 s => set_hold s (get_hold s0)) (year_good p h yr) h);
    try assumption.
  - intro g. apply call_frame.
  - intros s g Hg. apply call_agree. exact Hg.
Qed.

Lemma bisection (S : Type) (call : S -> R -> S * R) (restore : S -> S -> S) (s0 : S) (target rtol MX MN : R) n :
  (forall g g', call (restore s0 (fst (call s0 g'))) g = call s0 g) -> (0 <= rtol)%R -> (MN <= MX)%R ->
  (forall x y, MN <= x -> x <= y -> y <= MX -> snd (call s0 x) <= snd (call s0 y))%R ->
  let '(g, s, done) := guess_emissions S call restore s0 target (MX, MN) rtol n in
  (done <= n)%nat /\ (MN <= g <= MX)%R /\ s = fst (call s0 g) /\
  (Rabs (target - snd (call s0 g)) / target <= rtol \/ done = n)%R /\
  (forall e, MN <= e <= MX -> snd (call s0 e) = target -> Rabs (g - e) <= (MX - MN) / 2 ^ (done + 1))%R.
Proof.
  intros Hr Ht HM Hmono. apply (guess_acc S call restore (fun s => exists g', s = fst (call s0 g')) s0); try assumption.
  - intro g. exists g. reflexivity.
  - intros s g [g' E]. subst s. apply Hr.
Qed.
