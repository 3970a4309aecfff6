(** * Properties_Numbers: which given value each number of a run is (C99) *)
From Coq Require Import QArith.
From Verif Require Import PyBase PyBaseFacts Num M_Utils M_Flat M_Pams M_Gas M_Forcing M_RFuns M_Carbon M_TwoLayer M_UDM M_Driver M_Results M_Names M_Reader M_Parallel M_Whole
  Spec_Pams Spec_Parallel Spec_Whole Spec_Numbers P_Numbers Properties_Whole.

(** ** C99 *)
(** The run with configuration [c], after runs with configurations [cs] on the same instance: results of the computation whose every parameter is the value given for
    it, or its default, and whose series are those of the input. *)
Theorem C99_run : forall (A : Type) (N : Num A) nan number float_of cfg x w0 cs w c b,
  wf cfg -> Forall dictionaries (cs ++ [c]) -> build number float_of cfg x = Ok w0 -> after_runs nan number w0 cs w ->
  whole_run nan number w (cf_udm c) (cf_emiconc c) (cf_carbon c) = Ok b -> x_forc x = None ->
  exists i sc cp x0 s cl, instance_numbers cfg x i /\ run_numbers number float_of cfg x cs c sc cp x0 /\ new_carbon cp x0 s /\ driver_thermal cfg = Ok cl /\
  match cl with
  | TwoLayer => exists p, tl_numbers number (cf_udm c) p /\
      o_exn (coupled_run nan cp sc (tl_thermal p) i (x_gas x) (tl_init p) s true true []) = None /\
      same_results (q_results b) (o_results (coupled_run nan cp sc (tl_thermal p) i (x_gas x) (tl_init p) s true true []))
  | UpwellingDiffusion => exists p, ud_numbers number (cf_udm c) p /\
      o_exn (coupled_run nan cp sc (ud_thermal p) i (x_gas x) (ud_init p) s true true []) = None /\
      same_results (q_results b) (o_results (coupled_run nan cp sc (ud_thermal p) i (x_gas x) (ud_init p) s true true []))
  end.
Proof. intros A N. exact (@c99_fresh A N). Qed.
Print Assumptions C99_run.
(** Forcing runs. *)
Theorem C99_forcing_run : forall (A : Type) (N : Num A) nan number float_of cfg x w0 cs w c b,
  wf cfg -> dictionaries c -> build number float_of cfg x = Ok w0 -> after_runs nan number w0 cs w ->
  whole_run nan number w (cf_udm c) (cf_emiconc c) (cf_carbon c) = Ok b -> x_forc x <> None ->
  exists i cl, instance_numbers cfg x i /\ driver_thermal cfg = Ok cl /\
  match cl with
  | TwoLayer => exists p, tl_numbers number (cf_udm c) p /\ same_results (q_results b) (o_results (forcing_run (tl_thermal p) i (tl_init p) []))
  | UpwellingDiffusion => exists p, ud_numbers number (cf_udm c) p /\ same_results (q_results b) (o_results (forcing_run (ud_thermal p) i (ud_init p) []))
  end.
Proof. intros A N. exact (@c99_forcing A N). Qed.
Print Assumptions C99_forcing_run.
(** Whatever is given, the two-layer ocean gets numbers: what is no number is replaced by the default. *)
Theorem C99_two_layer : forall (A : Type) (N : Num A) (number : pyfloat -> A) udm,
  match udm with Some d => wf d | None => True end -> exists p, tl_pam_of number udm = Ok p /\ tl_numbers number udm p.
Proof. intros A N number udm O. destruct (tl_total number udm O) as [p P]. exists p. split; [exact P|exact (tl_numbers_of number udm p O P)]. Qed.
Print Assumptions C99_two_layer.

(** ** Examples *)
(** The hypotheses hold for the configurations of C98, and their runs complete. *)
Definition nx_build : result (whole Q) := build (N := QNum) wx_number FFin wx_scen (wx_data None).
Definition nx_after (cs : list config) : result (whole Q) :=
  fold_left (fun w c => do w <- w; whole_run (N := QNum) (- 999)%Q wx_number w (cf_udm c) (cf_emiconc c) (cf_carbon c)) cs nx_build.
Definition is_ok {B} (r : result B) : bool := match r with Ok _ => true | Err _ => false end.
Example C99_not_vacuous : wf wx_scen /\ Forall dictionaries wx_mixed /\ is_ok (nx_after wx_mixed) = true.
Proof.
  split; [apply wf_lit; reflexivity|]. split; [|vm_compute; reflexivity].
  constructor; [|constructor; [|constructor]]; (split; [|split]); apply wf_lit; reflexivity.
Qed.
(** Parameters of the second run: "beta_f" is the first configuration's, the mixed layer depth the default again, and the window that of the scenario. *)
Example C99_evaluated :
  let p w := do w <- w; do cx <- cc_pam_of (N := QNum) wx_number (in_carbon (q_params w)); Ok (beta_f (fst cx), idtm (fst cx), years_tot (fst cx), preind (fst cx), snd cx) in
  p (nx_after wx_mixed) = Ok (Qmake 1 2, 1%nat, 2%nat, 280%Q, 280%Q) /\
  p (nx_after (tl wx_mixed)) = Ok (Qmake 287 1000, 1%nat, 2%nat, 280%Q, 280%Q) /\
  (do q <- tl_pam_of wx_number (Some [("mixed", VInt 100); ("deep", VStr "x"); ("foan", VBool true)]); Ok (tl_mixed q, tl_deep q, tl_foan q, tl_foas q)) =
    Ok (100%Q, 1200%Q, 1%Q, Qmake 81 100).
Proof. vm_compute. repeat split. Qed.
