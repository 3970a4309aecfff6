(** * P_Coupled: the years of a coupled run as calls of the handler (C79, C83, C84) *)
From Coq Require Import Lia.
From Verif Require Import PyBase PyBaseFacts Num M_Gas M_TwoLayer M_Forcing M_Driver Spec_Driver P_Driver P_Driver2 P_Driver3 P_Driver4.

Section Trace.
Context {A : Type} {N : Num A} {T : Type} (th : thermal A T) (c : inst A) {H : Type}
  (emi2conc : H -> Z -> option (dict A) -> result H) (conc2forc : H -> Z -> A -> A -> result (H * (A * A * A * A))).
(** the handler's calls, year by year: feedback, land use and solar forcing, and what was returned *)
Inductive htrace : nat -> H -> list (option (dict A) * A * A * (A * A * A * A)) -> H -> Prop :=
| ht_nil n h : htrace n h [] h
| ht_cons n h fb luc sun q h1 h2 l h3 : emi2conc h (d_start c + Z.of_nat n)%Z fb = Ok h1 ->
    nth_error (d_luc c) n = Some luc -> nth_error (d_sun c) n = Some sun ->
    conc2forc h1 (d_start c + Z.of_nat n)%Z luc sun = Ok (h2, q) -> htrace (S n) h2 l h3 ->
    htrace n h ((fb, luc, sun, q) :: l) h3.
Definition total_of (x : option (dict A) * A * A * (A * A * A * A)) : A := fst (fst (fst (snd x))).
Definition fb_of (x : option (dict A) * A * A * (A * A * A * A)) : option (dict A) := fst (fst (fst x)).

Lemma years_trace fl m : d_rf c = None -> forall s n s',
  driver_years T th c H emi2conc conc2forc fl s (zrange (d_start c + Z.of_nat n) m) = (s', None) ->
  exists tr l, steps th c emi2conc conc2forc fl s n tr s' /\ List.length tr = m /\
    htrace n (l_h s) l (l_h s') /\ List.length l = m /\
    forall k x, nth_error l k = Some x ->
      fb_of x = feedback_arg fl (match k with O => l_values s | S k => option_map fst (nth_error tr k) end) /\
      option_map snd (nth_error tr k) = Some (total_of x).
Proof.
  intros R. induction m as [|m IH]; intros s n s' E.
  - cbn in E. injection E as <-. exists [], []. split; [constructor|]. split; [reflexivity|]. split; [constructor|]. split; [reflexivity|].
    intros [|k] x E; discriminate.
  - rewrite zrange_S in E. cbn [driver_years] in E.
    destruct (driver_year T th c H emi2conc conc2forc fl s (d_start c + Z.of_nat n)%Z) as [s1|e] eqn:D; [|discriminate].
    replace (d_start c + Z.of_nat n + 1)%Z with (d_start c + Z.of_nat (S n))%Z in E by lia.
    destruct (IH _ _ _ E) as (tr & l & X & Y & Z1 & Z2 & Z3).
    destruct (year_parts th c emi2conc conc2forc fl _ _ _ D) as (v & f & i & h & _ & V & Hh & AY & _ & _ & P). rewrite R in P. rewrite row_of in *.
    destruct P as (h1 & luc & sun & P1 & P2 & P3 & P4). subst h.
    exists ((v, f) :: tr), ((feedback_arg fl (l_values s), luc, sun, (f, i_nh i, i_sh i, i_w i)) :: l).
    split; [econstructor; eassumption|]. split; [cbn; lia|]. split; [econstructor; eassumption|]. split; [cbn; lia|].
    intros [|k] x Q.
    + cbn in Q. injection Q as <-. split; reflexivity.
    + cbn [nth_error] in Q |- *. destruct (Z3 k x Q) as [W1 W2]. split; [|exact W2]. rewrite W1. destruct k as [|k]; [rewrite V|]; reflexivity.
Qed.
Lemma run_trace t0 h0 r s : distinct_outputs (t_names th) -> d_rf c = None -> dget (t_names th) "dT_glob" = Some "dtemp" ->
  run_years T th c H emi2conc conc2forc (Some ["dtemp"]) t0 h0 r = (s, None) ->
  exists l temp, htrace 0 h0 l (l_h s) /\ List.length l = d_years c /\
    dget (l_res s) "dT_glob" = Some (Arr temp) /\ List.length temp = d_years c /\
    dget (l_res s) "Total_forcing" = Some (Arr (map total_of l)) /\
    forall k x, nth_error l k = Some x ->
      fb_of x = match k with O => None | S k => option_map (fun d => [("dtemp", d)]) (nth_error temp k) end.
Proof.
  intros DO R DN E. unfold run_years, year_list in E. rewrite <- (Z.add_0_r (d_start c)) in E at 1.
  destruct (years_trace _ _ R _ 0%nat _ E) as (tr & l & X & L & Z1 & Z2 & Z3). cbn [l_h l_values] in Z1, Z3.
  assert (C : complete (t_names th) c tr (l_res s)).
  { eapply filled_complete; [|exact L]. change tr with ([] ++ tr). eapply (steps_filled th c DO); [exact X | reflexivity | apply filled_init | cbn; lia]. }
  assert (IO : In "dT_glob" (output_names (t_names th))) by (apply in_or_app; left; apply dget_In_keys, dmem_true; eauto).
  assert (IT : In "Total_forcing" (output_names (t_names th))) by (apply in_or_app; right; left; reflexivity).
  destruct (C _ IO) as (temp & C1 & C2 & C3). destruct (C _ IT) as (tot & T1 & T2 & T3).
  exists l, temp. split; [exact Z1|]. split; [exact Z2|]. split; [exact C1|]. split; [congruence|]. split.
  - rewrite T1. do 2 f_equal. apply nth_error_eq. intros n. rewrite nth_error_map.
    destruct (nth_error l n) as [x|] eqn:Q; cbn [option_map].
    + destruct (Z3 n x Q) as [_ W]. destruct (nth_error tr n) as [[v f]|] eqn:TN; [|discriminate]. rewrite (T3 n v f TN).
      unfold cell. rewrite (forc_name_none th DO); [|left; reflexivity]. cbn in W |- *. exact W.
    + apply nth_error_None in Q. apply nth_error_None. lia.
  - intros [|k] x Q; destruct (Z3 _ x Q) as [W _]; rewrite W; [reflexivity|].
    assert (Lk : (k < List.length tr)%nat) by (assert (S k < List.length l)%nat by (apply nth_error_Some; congruence); lia).
    destruct (nth_error tr k) as [[v f]|] eqn:TN; [|apply nth_error_None in TN; lia]. rewrite (C3 k v f TN). unfold cell. rewrite DN.
    assert (Lt : (k < List.length temp)%nat) by lia. apply nth_error_Some in Lt. rewrite (C3 k v f TN) in Lt. unfold cell in Lt. rewrite DN in Lt.
    cbn [option_map fst feedback_arg map dupdate fold_left dset]. destruct (dget v "dtemp"); [reflexivity|contradiction].
Qed.
End Trace.
