(** * P_Input3: unit checks and forcing tables (C57, C59) *)
From Coq Require Import Reals Lra Lia Permutation.
From Verif Require Import PyBase PyBaseFacts Num M_Utils M_Gas M_Driver M_Input Spec_Input P_Input.

(** ** unit checks *)
Section Units.
Context {A : Type} (gas_table : datum A -> result (dict (gasrow A))) (header : cval A -> result (dict string)).

Lemma units_differ_false hd (gas : dict (gasrow A)) unit :
  units_differ hd gas unit = false <-> forall k r, In (k, r) gas -> (match dget hd k with Some u => u | None => EmptyString end) = unit r.
Proof.
  unfold units_differ, list_eqb. destruct (list_eq_dec string_dec _ _) as [E|E]; cbn [negb].
  - split; [|reflexivity]. intros _ k r I. revert E I. clear. induction gas as [|[k0 r0] gas IH]; cbn; intros E I; [destruct I|].
    injection E as E1 E2. destruct I as [I|I]; [injection I as <- <-; exact E1 | exact (IH E2 I)].
  - split; [discriminate|]. intros X. exfalso. apply E. apply map_ext_in. intros [k r] I. exact (X k r I).
Qed.
Lemma units_differ_cases hd (gas : dict (gasrow A)) unit :
  (units_differ hd gas unit = true -> ~ forall k r, In (k, r) gas -> (match dget hd k with Some u => u | None => EmptyString end) = unit r).
Proof. intros E X. apply units_differ_false in X. congruence. Qed.

Lemma checked_In (g : dict (gasrow A)) k r : wf g -> checked g k r <-> In (k, r) (filter (fun kg => negb (smem (fst kg) no_emissions)) g).
Proof.
  intros W. unfold checked. rewrite filter_In. cbn [fst]. rewrite Bool.negb_true_iff. fold no_em. change no_emissions with no_em. split.
  - intros [D NI]. split; [now apply dget_Some_In|]. destruct (smem k no_em) eqn:S; [|reflexivity]. apply smem_In in S. contradiction.
  - intros [I NI]. split; [now apply wf_In_dget|]. intros X. apply smem_In in X. congruence.
Qed.
Lemma mapM_key (g : dict (gasrow A)) l : (forall k, In k l -> dmem g k = true) -> exists ys, mapM (fun k => key k (dget g k)) l = Ok ys.
Proof.
  induction l as [|k l IH]; intros H; [exists []; reflexivity|]. destruct IH as [ys E]; [intros x I; apply H; now right|].
  specialize (H k (or_introl eq_refl)). apply dmem_true in H as [v D]. exists (v :: ys). cbn [mapM]. rewrite D. cbn [key rbind]. now rewrite E.
Qed.
Lemma mapM_key_missing (g : dict (gasrow A)) l k : In k l -> dmem g k = false -> exists k', In k' l /\ dmem g k' = false /\ mapM (fun k => key k (dget g k)) l = Err (KeyError k').
Proof.
  induction l as [|k0 l IH]; intros I M; [destruct I|]. cbn [mapM]. destruct (dget g k0) as [v|] eqn:D.
  - destruct I as [->|I]; [unfold dmem in M; rewrite D in M; discriminate|]. destruct (IH I M) as (k' & I' & M' & E). exists k'. split; [now right|]. split; [exact M'|]. cbn [key rbind]. now rewrite E.
  - exists k0. split; [now left|]. split; [unfold dmem; now rewrite D | reflexivity].
Qed.

Lemma c59_check h d g eh ch : optional_pam h "gaspam" = true -> get_data h "gaspam" = Ok d -> gas_table d = Ok g -> wf g ->
  (forall k, In k no_em -> dmem g k = true) ->
  header_of header h "emissions_file" eh -> header_of header h "concentrations_file" ch -> (forall hd, eh = Some hd -> wf hd /\ dmem hd "CO2.1" = true) ->
  let missing := exists hd k r, eh = Some hd /\ checked g k r /\ (k = "CO2.1" \/ dget hd k = None) in
  let em_bad := exists hd k r u, eh = Some hd /\ checked g k r /\ dget hd k = Some u /\ u <> em_unit r in
  let conc_bad := exists hd k r u, ch = Some hd /\ checked g k r /\ dget hd k = Some u /\ u <> conc_unit r in
  (missing -> check_gaspam gas_table header h = Ok tt) /\
  (~ missing -> (check_gaspam gas_table header h = Err ValueError /\ (em_bad \/ conc_bad)) \/ (check_gaspam gas_table header h = Ok tt /\ ~ em_bad /\ ~ conc_bad)).
Proof.
  intros OP GD GT W NE HE HC CO missing em_bad conc_bad. unfold check_gaspam. rewrite OP, GD. cbn [rbind]. rewrite GT. cbn [rbind].
  destruct (mapM_key g no_em NE) as [ys MK]. change no_emissions with no_em. rewrite MK. cbn [rbind]. change no_em with no_emissions.
  set (gas := filter (fun kg => negb (smem (fst kg) no_emissions)) g). 
  assert (forall k r, checked g k r <-> In (k, r) gas) as CI by (intros k r; now apply checked_In).
  assert (check_concentrations header h gas = Err ValueError /\ conc_bad \/ check_concentrations header h gas = Ok tt /\ ~ conc_bad) as CC.
  { unfold check_concentrations. unfold header_of in HC. destruct (dget h "concentrations_file") as [p|].
    - destruct HC as (hd & EH & ->). rewrite EH. cbn [rbind]. destruct (units_differ hd _ conc_unit) eqn:U.
      + left. split; [reflexivity|].
        assert (exists kr, In kr (filter (fun kg : string * gasrow A => dmem hd (fst kg)) gas) /\ (match dget hd (fst kr) with Some u => u | None => EmptyString end) <> conc_unit (snd kr)) as (kr & I & X).
        { apply units_differ_cases in U. revert U. generalize (filter (fun kg : string * gasrow A => dmem hd (fst kg)) gas) as l. clear. induction l as [|[k r] l IH]; intros U; [exfalso; apply U; intros ? ? []|].
          destruct (string_dec (match dget hd k with Some u => u | None => EmptyString end) (conc_unit r)) as [E|E].
          - destruct IH as (kr & I & X); [|exists kr; split; [now right | exact X]]. intros Y. apply U. intros k' r' [I|I]; [injection I as <- <-; exact E | exact (Y k' r' I)].
          - exists (k, r). split; [now left | exact E]. }
        apply filter_In in I as [I M]. destruct kr as [k r]. cbn [fst snd] in *. apply dmem_true in M as [u D]. rewrite D in X. exists hd, k, r, u. split; [reflexivity|]. split; [now apply CI|]. split; assumption.
      + right. split; [reflexivity|]. intros (hd' & k & r & u & EQ & C & D & X). injection EQ as <-. apply X.
        assert (In (k, r) (filter (fun kg : string * gasrow A => dmem hd (fst kg)) gas)) as I by (apply filter_In; split; [now apply CI | cbn; unfold dmem; now rewrite D]).
        pose proof (proj1 (units_differ_false hd _ conc_unit) U k r I) as Y. now rewrite D in Y.
    - right. split; [reflexivity|]. subst ch. intros (hd & k & r & u & EQ & _). discriminate. }
  unfold check_emissions. unfold header_of in HE. destruct (dget h "emissions_file") as [p|].
  - destruct HE as (hd & EH & ->). rewrite EH. cbn [rbind]. destruct (CO hd eq_refl) as [WH M1]. apply dmem_true in M1 as [u1 D1]. rewrite D1. cbn [key rbind].
    destruct (forallb (fun k => dmem (ddel hd "CO2.1") k) (dkeys gas)) eqn:F; cbn [negb].
    + assert (forall k r, checked g k r -> k <> "CO2.1" /\ exists u, dget hd k = Some u) as PR.
      { intros k r C. apply CI in C. rewrite forallb_forall in F. specialize (F k (in_map fst _ _ C)). apply dmem_true in F as [u D]. rewrite dget_ddel in D by exact WH.
        destruct (String.eqb_spec "CO2.1" k) as [<-|N1]; [discriminate|]. split; [congruence | exists u; exact D]. }
      split; [intros (hd' & k & r & EQ & C & X); injection EQ as <-; destruct (PR k r C) as [N1 [u D]]; destruct X; congruence|]. intros _.
      destruct (units_differ (ddel hd "CO2.1") gas em_unit) eqn:U; cbn [rbind].
      * left. split; [reflexivity|]. left.
        assert (exists kr, In kr gas /\ (match dget (ddel hd "CO2.1") (fst kr) with Some u => u | None => EmptyString end) <> em_unit (snd kr)) as (kr & I & X).
        { apply units_differ_cases in U. revert U. clear. induction gas as [|[k r] l IH]; intros U; [exfalso; apply U; intros ? ? []|].
          destruct (string_dec (match dget (ddel hd "CO2.1") k with Some u => u | None => EmptyString end) (em_unit r)) as [E|E].
          - destruct IH as (kr & I & X); [|exists kr; split; [now right | exact X]]. intros Y. apply U. intros k' r' [I|I]; [injection I as <- <-; exact E | exact (Y k' r' I)].
          - exists (k, r). split; [now left | exact E]. }
        destruct kr as [k r]. cbn [fst snd] in *. apply CI in I. destruct (PR k r I) as [N1 [u D]]. rewrite dget_ddel in X by exact WH.
        destruct (String.eqb_spec "CO2.1" k) as [E1|_]; [congruence|]. rewrite D in X. exists hd, k, r, u. split; [reflexivity|]. split; [exact I|]. split; assumption.
      * assert (~ em_bad) as NB.
        { intros (hd' & k & r & u & EQ & C & D & X). injection EQ as <-. apply X. destruct (PR k r C) as [N1 _].
          pose proof (proj1 (units_differ_false _ _ _) U k r (proj1 (CI k r) C)) as Y. rewrite dget_ddel in Y by exact WH.
          destruct (String.eqb_spec "CO2.1" k) as [E1|_]; [congruence|]. now rewrite D in Y. }
        destruct CC as [[-> B]|[-> B]]; [left; split; [reflexivity | now right] | right; split; [reflexivity|]; split; assumption].
    + split; [reflexivity|]. intros NM. exfalso. apply NM. 
      assert (exists k, In k (dkeys gas) /\ dmem (ddel hd "CO2.1") k = false) as (k & I & M).
      { revert F. generalize (dkeys gas) as l. clear. induction l as [|k l IH]; cbn; [discriminate|]. destruct (dmem (ddel hd "CO2.1") k) eqn:M; cbn [andb].
        - intros F. destruct (IH F) as (x & I & X). exists x. split; [now right | exact X].
        - intros _. exists k. split; [now left | exact M]. }
      unfold dkeys in I. apply in_map_iff in I as ([k' r] & EK & I). cbn in EK. subst k'. apply CI in I. exists hd, k, r. split; [reflexivity|]. split; [exact I|].
      apply dmem_false in M. rewrite dget_ddel in M by exact WH. destruct (String.eqb_spec "CO2.1" k) as [E1|_]; [left; congruence | right; exact M].
  - subst eh. cbn [rbind]. split; [intros (hd & k & r & EQ & _); discriminate|]. intros _.
    assert (~ em_bad) as NB by (intros (hd & k & r & u & EQ & _); discriminate).
    destruct CC as [[-> B]|[-> B]]; [left; split; [reflexivity | now right] | right; split; [reflexivity|]; split; assumption].
Qed.
Lemma c59_key h d g k : optional_pam h "gaspam" = true -> get_data h "gaspam" = Ok d -> gas_table d = Ok g ->
  In k no_em -> dmem g k = false -> exists k', In k' no_em /\ dmem g k' = false /\ check_gaspam gas_table header h = Err (KeyError k').
Proof.
  intros OP GD GT I M. destruct (mapM_key_missing g no_em k I M) as (k' & I' & M' & E). exists k'. split; [exact I'|]. split; [exact M'|].
  unfold check_gaspam. rewrite OP, GD. cbn [rbind]. rewrite GT. cbn [rbind]. change no_emissions with no_em. rewrite E. reflexivity.
Qed.
End Units.
