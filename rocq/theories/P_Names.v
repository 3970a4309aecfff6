(** * P_Names: strings and the rule of 90 (C60) *)
From Coq Require Import Ascii DecimalString DecimalNat DecimalFacts.
From Verif Require Import PyBase PyBaseFacts Num M_Utils M_Gas M_Names Spec_Names.

Lemma sapp_assoc a b c : ((a ++ b) ++ c = a ++ b ++ c)%string.
Proof. induction a; cbn; [reflexivity | now rewrite IHa]. Qed.
Lemma sapp_nil a : (a ++ "" = a)%string. Proof. induction a; cbn; [reflexivity | now rewrite IHa]. Qed.
Lemma slen_app a b : String.length (a ++ b) = String.length a + String.length b.
Proof. induction a; cbn; [reflexivity | now rewrite IHa]. Qed.
Lemma prefix_app sub : forall b, String.prefix sub (sub ++ b) = true.
Proof. induction sub; intros b; cbn; [now destruct b|]. destruct (ascii_dec a a); [apply IHsub | contradiction]. Qed.
Lemma prefix_ex sub : forall s, String.prefix sub s = true -> exists b, s = (sub ++ b)%string.
Proof.
  induction sub as [|c sub IH]; intros s P; [exists s; reflexivity|]. destruct s as [|c' s]; [discriminate|]. cbn in P.
  destruct (ascii_dec c c') as [->|]; [|discriminate]. destruct (IH s P) as [b ->]. exists b. reflexivity.
Qed.
Lemma contains_occurs sub s : contains sub s = true <-> occurs sub s.
Proof.
  unfold occurs. split.
  - induction s as [|c s IH]; cbn [contains]; intros E; apply Bool.orb_true_iff in E as [E|E]; try discriminate.
    + apply prefix_ex in E as [b E]. exists ""%string, b. exact E.
    + apply prefix_ex in E as [b E]. exists ""%string, b. exact E.
    + destruct (IH E) as (a & b & ->). exists (String c a), b. reflexivity.
  - intros (a & b & ->). induction a as [|c a IH]; cbn [append].
    + assert (String.prefix sub (sub ++ b) = true) as P by apply prefix_app. destruct (sub ++ b)%string; cbn [contains]; now rewrite P.
    + cbn [contains]. now rewrite IH, Bool.orb_true_r.
Qed.
Lemma not_contains sub s : contains sub s = false <-> ~ occurs sub s.
Proof. rewrite <- contains_occurs. destruct (contains sub s); split; intros X; try discriminate; try reflexivity; try congruence; now contradict X. Qed.
Lemma sdrop_app a b : sdrop (String.length a) (a ++ b) = b. Proof. induction a; cbn; [reflexivity | exact IHa]. Qed.
Lemma after_Some sep s r : after sep s = Some r -> exists a, s = (a ++ sep ++ r)%string.
Proof.
  revert r. induction s as [|c s IH]; intros r E; cbn [after] in E.
  - destruct (String.prefix sep "") eqn:P; [|discriminate]. apply prefix_ex in P as [b P]. rewrite P in E. rewrite sdrop_app in E. injection E as <-. exists ""%string. exact P.
  - destruct (String.prefix sep (String c s)) eqn:P.
    + apply prefix_ex in P as [b P]. rewrite P in E |- *. rewrite sdrop_app in E. injection E as <-. now exists ""%string.
    + destruct (IH r E) as [a ->]. now exists (String c a).
Qed.
Lemma after_None sep s : after sep s = None -> ~ occurs sep s.
Proof.
  intros E. apply not_contains. induction s as [|c s IH]; cbn [after contains] in *; destruct (String.prefix sep _); try discriminate; [reflexivity | now apply IH].
Qed.
Lemma split_last_spec sep s : sep <> ""%string -> ~ occurs sep (split_last sep s) /\
  ((~ occurs sep s /\ split_last sep s = s) \/ exists a, s = (a ++ sep ++ split_last sep s)%string).
Proof.
  intros NE. unfold split_last. assert (String.length s <= String.length s) as L by lia. revert L. generalize (String.length s) at 2 3 4 5 as fuel. intros fuel. revert s.
  induction fuel as [|fuel IH]; intros s L; cbn [split_last_fuel].
  - destruct s; [|cbn in L; lia]. assert (~ occurs sep "") as NO by (intros (a & b & E); destruct a; [|discriminate]; destruct sep; [contradiction | discriminate]).
    split; [exact NO | left; now split].
  - destruct (after sep s) as [r|] eqn:A.
    + apply after_Some in A as [a ->]. destruct (IH r) as [N C].
      { rewrite !slen_app in L. destruct sep; [contradiction|]. cbn in L. lia. }
      split; [exact N|]. right. destruct C as [[_ ->]|[b E]]; [now exists a|]. exists (a ++ sep ++ b)%string. rewrite E at 1. now rewrite !sapp_assoc.
    + apply after_None in A. split; [exact A | left; now split].
Qed.
(** symbols of one or two different characters do not overlap *)
Definition symbol (sep : string) : Prop := (exists c, sep = String c "") \/ (exists c d, sep = String c (String d "") /\ c <> d).
Lemma last_unique sep : symbol sep -> forall a a' r r', (a ++ sep ++ r)%string = (a' ++ sep ++ r')%string -> ~ occurs sep r -> ~ occurs sep r' -> r = r'.
Proof.
  intros SY. assert (forall a' r r', (sep ++ r)%string = (a' ++ sep ++ r')%string -> ~ occurs sep r -> r = r') as B.
  { intros a' r r' E N. destruct SY as [[c ->]|(c & d & -> & CD)].
    - destruct a' as [|x a']; cbn in E; [now injection E|]. injection E as -> ->. contradict N. now exists a', r'.
    - destruct a' as [|x a']; cbn in E; [now injection E|]. destruct a' as [|y a']; cbn in E; [injection E as -> -> ->; contradiction|].
      injection E as -> -> ->. contradict N. now exists a', r'. }
  induction a as [|x a IH]; intros a' r r' E N N'; [now apply (B a')|].
  destruct a' as [|x' a']; [symmetry; now apply (B (String x a))|]. cbn in E. injection E as -> E. now apply (IH a').
Qed.
Lemma split_last_eq sep a r : symbol sep -> ~ occurs sep r -> split_last sep (a ++ sep ++ r) = r.
Proof.
  intros SY N. assert (sep <> ""%string) as NE by (destruct SY as [[c ->]|(c & d & -> & _)]; discriminate).
  destruct (split_last_spec sep (a ++ sep ++ r) NE) as [N' [[NO _]|[a' E]]].
  - contradict NO. now exists a, r.
  - symmetry. exact (last_unique sep SY a a' r _ E N N').
Qed.

(** ** numbers *)
Fixpoint digits_only (s : string) : bool := match s with EmptyString => true | String a r => isdigit a && digits_only r end.
Lemma digit_not_space a : isdigit a = true -> space a = false.
Proof.
  unfold isdigit, digit, space. destruct (Nat.leb_spec 48 (nat_of_ascii a)); cbn [andb]; [|discriminate]. intros _.
  destruct (Nat.leb_spec (nat_of_ascii a) 13); [lia|]. destruct (Nat.leb_spec (nat_of_ascii a) 32); [lia|]. now rewrite !Bool.andb_false_r.
Qed.
Lemma digit_not a b : isdigit a = true -> isdigit b = false -> Ascii.eqb a b = false.
Proof. intros A B. destruct (Ascii.eqb_spec a b) as [->|]; [congruence | reflexivity]. Qed.
Lemma rstrip_snoc s a : space a = false -> rstrip (s ++ String a "") = (s ++ String a "")%string.
Proof.
  intros NS. induction s as [|c s IH]; cbn [append rstrip]; [now rewrite NS|]. rewrite IH. destruct (s ++ String a "")%string eqn:E; [destruct s; discriminate|].
  cbn [String.eqb]. now rewrite Bool.andb_false_r.
Qed.
Lemma rstrip_digits s : digits_only s = true -> rstrip s = s.
Proof. induction s as [|a s IH]; cbn; [reflexivity|]. intros E. apply andb_prop in E as [A B]. rewrite (digit_not_space a A), IH by exact B. reflexivity. Qed.
Lemma lstrip_first a s : space a = false -> lstrip (String a s) = String a s.
Proof. intros NS. cbn. now rewrite NS. Qed.
Fixpoint value_of (acc : Z) (s : string) : Z :=
  match s with EmptyString => acc | String a r => value_of (10 * acc + match digit a with Some d => d | None => 0 end)%Z r end.
Lemma int_more_digits s : forall acc, digits_only s = true -> int_more acc s = Ok (value_of acc s).
Proof.
  induction s as [|a s IH]; intros acc E; cbn in *; [reflexivity|]. apply andb_prop in E as [A B]. unfold isdigit in A. destruct (digit a); [|discriminate]. now apply IH.
Qed.
Lemma py_int_digits s : s <> ""%string -> digits_only s = true -> py_int s = Ok (value_of 0 s).
Proof.
  intros NE E. destruct s as [|a s]; [contradiction|]. unfold py_int. cbn [digits_only] in E. apply andb_prop in E as [A B].
  rewrite lstrip_first by now apply digit_not_space. rewrite rstrip_digits by (cbn; now rewrite A).
  rewrite !(digit_not a _ A) by reflexivity. cbn [int_unsigned value_of]. unfold isdigit in A. destruct (digit a) as [d|]; [|discriminate]. now rewrite int_more_digits.
Qed.
Lemma sou_digits u : digits_only (NilEmpty.string_of_uint u) = true.
Proof. induction u; cbn [NilEmpty.string_of_uint digits_only]; try reflexivity; exact IHu. Qed.
Lemma tail_mul_10 n : Nat.tail_mul 10 n = 10 * n. Proof. apply Nat.tail_mul_spec. Qed.
Lemma sou_value u : forall acc, value_of (Z.of_nat acc) (NilEmpty.string_of_uint u) = Z.of_nat (Nat.of_uint_acc u acc).
Proof.
  induction u; intros acc; cbn [NilEmpty.string_of_uint value_of Nat.of_uint_acc]; try reflexivity;
  rewrite <- IHu, tail_mul_10; f_equal; cbn [digit nat_of_ascii]; match goal with |- context [digit ?c] => let v := eval vm_compute in (digit c) in change (digit c) with v end; lia.
Qed.
Lemma printed_value n : value_of 0 (printed n) = Z.of_nat n.
Proof. unfold printed. change 0%Z with (Z.of_nat 0). rewrite sou_value. change (Z.of_nat (Nat.of_uint (Nat.to_uint n)) = Z.of_nat n). now rewrite Unsigned.of_to. Qed.
Lemma to_uint_nonnil n : Nat.to_uint n <> Decimal.Nil.
Proof. intros E. assert (n = 0) as -> by (rewrite <- (Unsigned.of_to n), E; reflexivity). discriminate E. Qed.
Lemma printed_nonempty n : printed n <> ""%string.
Proof. unfold printed. pose proof (to_uint_nonnil n). destruct (Nat.to_uint n); [contradiction|..]; discriminate. Qed.
Lemma printed_int n : py_int (printed n) = Ok (Z.of_nat n).
Proof. rewrite py_int_digits, printed_value; [reflexivity | apply printed_nonempty | apply sou_digits]. Qed.
Lemma is_digit_iff a : is_digit a <-> isdigit a = true.
Proof.
  split; [intros I; repeat (destruct I as [<-|I]; [reflexivity|]); destruct I|]. destruct a as [b0 b1 b2 b3 b4 b5 b6 b7].
  destruct b0, b1, b2, b3, b4, b5, b6, b7; vm_compute; intros E; try discriminate E; tauto.
Qed.
Lemma digits_no_char s c : digits_only s = true -> isdigit c = false -> ~ occurs (String c "") s.
Proof.
  intros D C (a & b & E). subst s. induction a as [|x a IH]; cbn in D; apply andb_prop in D as [D1 D2]; [congruence | now apply IH].
Qed.
Lemma occurs_snoc c s x : occurs (String c "") (s ++ String x "") -> occurs (String c "") s \/ x = c.
Proof.
  intros (a & b & E). revert a E. induction s as [|y s IH]; intros a E; cbn in E.
  - destruct a as [|z a]; cbn in E; [injection E as -> _; now right|]. injection E as _ E. destruct a; discriminate.
  - destruct a as [|z a]; cbn in E; injection E as -> E; [left; now exists ""%string, s|]. destruct (IH a E) as [(a' & b' & ->)|X]; [left; now exists (String z a'), b' | now right].
Qed.
Lemma get_last s a : String.get (String.length s) (s ++ String a "") = Some a.
Proof. induction s; cbn; [reflexivity | exact IHs]. Qed.
Lemma last_snoc s a : last_char (s ++ String a "") = Ok a.
Proof. unfold last_char, char_at. rewrite slen_app. cbn [String.length]. replace (String.length s + 1 - 1) with (String.length s) by lia. now rewrite get_last. Qed.
Lemma butlast_snoc s a : butlast (s ++ String a "") = s.
Proof.
  unfold butlast. rewrite slen_app. cbn [String.length]. replace (String.length s + 1 - 1) with (String.length s) by lia.
  induction s as [|x s IH]; cbn; [reflexivity | now rewrite IH].
Qed.
Lemma snoc_view s : s <> ""%string -> exists i a, s = (i ++ String a "")%string.
Proof.
  induction s as [|x s IH]; [contradiction|]. intros _. destruct s as [|y s]; [now exists ""%string, x|]. destruct IH as (i & a & E); [discriminate|]. exists (String x i), a. cbn. now rewrite <- E.
Qed.
Lemma digits_snoc i a : digits_only (i ++ String a "") = digits_only i && isdigit a.
Proof. induction i as [|x i IH]; cbn; [now rewrite Bool.andb_true_r | rewrite IH; apply Bool.andb_assoc]. Qed.

(** ** the count *)
Lemma count_formula m : balanced m -> one_digit m -> let n := Z.of_nat (number m) in
  ((n mod 1000) / 100 * 2 + 4 - 2 * (n / 1000) - ((n mod 100) / 10 - 1) - n mod 10)%Z = Z.of_nat (chlorine m).
Proof.
  intros B O n. unfold balanced, one_digit in B, O. destruct O as ((C1 & C2) & H & F). unfold number in n. destruct m as [c h f cl d]. cbn [carbon hydrogen fluorine chlorine double_bonds] in *.
  set (C := Z.of_nat (c - 1)). set (Hh := Z.of_nat (h + 1)). set (Ff := Z.of_nat f). set (D := Z.of_nat d).
  assert (n = 1000 * D + 100 * C + 10 * Hh + Ff)%Z as E by (unfold n, C, Hh, Ff, D; lia).
  assert (0 <= C <= 9 /\ 1 <= Hh <= 9 /\ 0 <= Ff <= 9 /\ 0 <= D)%Z as R by (unfold C, Hh, Ff, D; lia).
  rewrite E. clearbody n.
  assert ((1000 * D + 100 * C + 10 * Hh + Ff) / 1000 = D)%Z as -> by (symmetry; apply (Z.div_unique _ 1000 D (100 * C + 10 * Hh + Ff)); lia).
  assert ((1000 * D + 100 * C + 10 * Hh + Ff) mod 1000 = 100 * C + 10 * Hh + Ff)%Z as -> by (symmetry; apply (Z.mod_unique _ 1000 D); lia).
  assert ((1000 * D + 100 * C + 10 * Hh + Ff) mod 100 = 10 * Hh + Ff)%Z as -> by (symmetry; apply (Z.mod_unique _ 100 (10 * D + C)); lia).
  assert ((1000 * D + 100 * C + 10 * Hh + Ff) mod 10 = Ff)%Z as -> by (symmetry; apply (Z.mod_unique _ 10 (100 * D + 10 * C + Hh)); lia).
  assert ((100 * C + 10 * Hh + Ff) / 100 = C)%Z as -> by (symmetry; apply (Z.div_unique _ 100 C (10 * Hh + Ff)); lia).
  assert ((10 * Hh + Ff) / 10 = Hh)%Z as -> by (symmetry; apply (Z.div_unique _ 10 Hh Ff); lia).
  unfold C, Hh, Ff, D. lia.
Qed.
Definition optional_letter (l : string) : Prop := l = ""%string \/ exists a, l = String a "" /\ ~ is_digit a /\ a <> "-"%char.
Lemma hyphen : symbol "-". Proof. left. now exists "-"%char. Qed.
Lemma not_digit a : ~ is_digit a -> isdigit a = false.
Proof. rewrite is_digit_iff. destruct (isdigit a); [intros X; now contradict X | reflexivity]. Qed.
Lemma c60_count fam m l : balanced m -> one_digit m -> (l = ""%string \/ exists a, l = String a "" /\ ~ is_digit a /\ a <> "-"%char) ->
  find_num_cl_in_hcfc (fam ++ "-" ++ printed (number m) ++ l) = Ok (Z.of_nat (chlorine m)).
Proof.
  intros B O L. unfold find_num_cl_in_hcfc. pose proof (sou_digits (Nat.to_uint (number m))) as DG. fold (printed (number m)) in DG.
  assert (~ occurs "-" (printed (number m))) as NP by (now apply digits_no_char).
  assert ((do l0 <- last_char (printed (number m) ++ l); do x <- (if negb (isdigit l0) then py_int (butlast (printed (number m) ++ l)) else py_int (printed (number m) ++ l)); Ok x) = Ok (Z.of_nat (number m)) /\ ~ occurs "-" (printed (number m) ++ l)) as [E NO].
  { destruct L as [->|(a & -> & ND & NH)].
    - rewrite sapp_nil. destruct (snoc_view (printed (number m)) (printed_nonempty _)) as (i & a & E). pose proof DG as DG'. rewrite E, digits_snoc in DG'. apply andb_prop in DG' as [_ DA].
      rewrite E at 1. rewrite last_snoc. cbn [rbind]. rewrite DA. cbn [negb]. rewrite printed_int. split; [reflexivity | exact NP].
    - rewrite last_snoc, butlast_snoc. cbn [rbind]. rewrite not_digit by exact ND. cbn [negb]. rewrite printed_int. split; [reflexivity|].
      intros X. apply occurs_snoc in X as [X|X]; [contradiction | congruence]. }
  rewrite split_last_eq by (exact hyphen || exact NO). destruct (last_char (printed (number m) ++ l)) as [l0|]; [|discriminate]. cbn [rbind] in *.
  destruct (if negb (isdigit l0) then py_int (butlast (printed (number m) ++ l)) else py_int (printed (number m) ++ l)) as [x|]; [|discriminate]. cbn [rbind] in *. injection E as ->.
  f_equal. exact (count_formula m B O).
Qed.
(** an underscore between digits *)
Lemma int_more_under s t : digits_only s = true -> digits_only t = true -> t <> ""%string -> forall acc, int_more acc (s ++ "_" ++ t) = int_more acc (s ++ t).
Proof.
  intros Ds Dt Nt. induction s as [|x s IH]; intros acc.
  - destruct t as [|b t]; [now contradict Nt|]. cbn [digits_only] in Dt. apply andb_prop in Dt as [Db _]. unfold isdigit in Db. cbn [append int_more].
    change (digit "_") with (@None Z). change (Ascii.eqb "_" "_") with true. cbn iota. destruct (digit b); [reflexivity | discriminate].
  - cbn [digits_only] in Ds. apply andb_prop in Ds as [Dx Ds]. unfold isdigit in Dx. cbn [append int_more]. destruct (digit x); [exact (IH Ds _) | discriminate].
Qed.
Lemma digits_sapp s t : digits_only s = true -> digits_only t = true -> digits_only (s ++ t) = true.
Proof. intros Hs Ht. induction s as [|x s IH]; [exact Ht|]. cbn [append digits_only] in *. apply andb_prop in Hs as [-> Hs]. exact (IH Hs). Qed.
Lemma c60_underscore fam a b : find_num_cl_in_hcfc (fam ++ "-" ++ printed a ++ "_" ++ printed b) = find_num_cl_in_hcfc (fam ++ "-" ++ printed a ++ printed b).
Proof.
  pose proof (sou_digits (Nat.to_uint a)) as DA. fold (printed a) in DA. pose proof (sou_digits (Nat.to_uint b)) as DB. fold (printed b) in DB.
  destruct (snoc_view (printed b) (printed_nonempty _)) as (i & z & E). pose proof DB as DZ. rewrite E, digits_snoc in DZ. apply andb_prop in DZ as [DI DZ].
  destruct (printed a) as [|x s] eqn:P; [now apply printed_nonempty in P|]. pose proof DA as DX. cbn [digits_only] in DX. apply andb_prop in DX as [DX DS].
  assert (~ occurs "-" (String x s ++ printed b)) as N2 by (apply digits_no_char; [apply digits_sapp; assumption | reflexivity]).
  assert (~ occurs "-" (String x s ++ "_" ++ printed b)) as N1.
  { clear - DA DB. intros (u & v & X). revert u X. induction (String x s) as [|y r IH]; intros u X.
    - destruct u as [|y u]; cbn [append] in X; [discriminate X|]. injection X as _ X. apply (digits_no_char (printed b) "-"%char DB eq_refl). exists u, v. exact X.
    - cbn [digits_only] in DA. apply andb_prop in DA as [DY DR]. destruct u as [|y' u]; cbn [append] in X; injection X as -> X; [discriminate DY | exact (IH DR u X)]. }
  assert (py_int (String x s ++ "_" ++ printed b) = py_int (String x s ++ printed b)) as EI.
  { unfold py_int. cbn [append]. rewrite !lstrip_first by now apply digit_not_space. rewrite E.
    assert (rstrip (String x (s ++ String "_" (i ++ String z ""))) = String x (s ++ "_" ++ i ++ String z "")%string) as ->.
    { pose proof (rstrip_snoc (String x s ++ String "_" i) z (digit_not_space z DZ)) as R. rewrite sapp_assoc in R. exact R. }
    assert (rstrip (String x (s ++ i ++ String z "")) = String x (s ++ i ++ String z "")%string) as ->.
    { pose proof (rstrip_snoc (String x s ++ i) z (digit_not_space z DZ)) as R. rewrite sapp_assoc in R. exact R. }
    rewrite !(digit_not x _ DX) by reflexivity. cbn [int_unsigned]. destruct (digit x); [|reflexivity]. apply int_more_under; [exact DS | rewrite <- E; exact DB | rewrite <- E; apply printed_nonempty]. }
  unfold find_num_cl_in_hcfc. rewrite !split_last_eq by (exact hyphen || assumption).
  assert (last_char (String x s ++ "_" ++ printed b) = Ok z) as -> by (rewrite E, <- !sapp_assoc; apply last_snoc).
  assert (last_char (String x s ++ printed b) = Ok z) as -> by (rewrite E, <- !sapp_assoc; apply last_snoc).
  cbn [rbind]. rewrite DZ. cbn [negb]. rewrite EI. reflexivity.
Qed.
Lemma c60_two_letters fam n a b : ~ is_digit a -> ~ is_digit b -> a <> "-"%char -> b <> "-"%char -> space a = false ->
  find_num_cl_in_hcfc (fam ++ "-" ++ printed n ++ String a (String b "")) = Err ValueError.
Proof.
  intros DA DB HA HB SA. unfold find_num_cl_in_hcfc. pose proof (sou_digits (Nat.to_uint n)) as DG. fold (printed n) in DG.
  assert ((printed n ++ String a (String b "") = (printed n ++ String a "") ++ String b "")%string) as E by (rewrite sapp_assoc; reflexivity).
  rewrite split_last_eq; [|exact hyphen|].
  2: { rewrite E. intros X. apply occurs_snoc in X as [X|X]; [|congruence]. apply occurs_snoc in X as [X|X]; [|congruence]. now apply (digits_no_char (printed n) "-"%char). }
  rewrite E, last_snoc, butlast_snoc. cbn [rbind]. rewrite not_digit by exact DB. cbn [negb].
  assert (py_int (printed n ++ String a "") = Err ValueError) as ->; [|reflexivity]. apply not_digit in DA.
  destruct (printed n) as [|x s] eqn:P; [now apply printed_nonempty in P|]. cbn [digits_only] in DG. apply andb_prop in DG as [DX DS].
  unfold py_int. cbn [append]. rewrite lstrip_first by now apply digit_not_space.
  change (String x (s ++ String a "")) with (String x s ++ String a "")%string. rewrite rstrip_snoc by exact SA. cbn [append].
  rewrite !(digit_not x _ DX) by reflexivity. cbn [int_unsigned]. unfold isdigit in DX. destruct (digit x) as [d|]; [|discriminate].
  clear P E. revert d DS. induction s as [|y s IH]; intros d DS.
  - cbn [append int_more]. unfold isdigit in DA. destruct (digit a); [discriminate|]. destruct (Ascii.eqb a "_"); reflexivity.
  - cbn [digits_only] in DS. apply andb_prop in DS as [DY DS]. cbn [append int_more]. unfold isdigit in DY. destruct (digit y) as [d'|]; [|discriminate]. now apply IH.
Qed.
