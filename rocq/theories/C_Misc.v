(** Properties C58 (division of a field name), C59 (boilerplate segments), C60 (EdiMetaData). *)
From Coq Require Import Ascii String List NArith Bool Lia.
From Verif Require Import PyBase PyStr PyRe M_Components M_Misc L_Base S_Text L_Str L_Validators S_Misc L_Misc.
Import ListNotations.
Local Open Scope list_scope.

(** ** C58 *)
Theorem C58_gas name : is_gas_name name = Some true <-> mentions_word (u "gas") name.
Proof.
  rewrite <- gas_word. unfold is_gas_name. destruct (contains _ _); [easy|].
  destruct (is_true _); split; intros H; discriminate.
Qed.
Theorem C58_electricity name : is_electricity_name name = Some true <-> mentions_word (u "strom") name.
Proof.
  rewrite <- strom_word. unfold is_electricity_name. destruct (contains _ (u "strom")); [easy|].
  destruct (is_true _); split; intros H; discriminate.
Qed.
(** "no" means: it is the other one, and not both; otherwise nothing is known *)
Theorem C58_not_gas name :
  is_gas_name name = Some false <-> ~ mentions_word (u "gas") name /\ mentions_word (u "strom") name.
Proof.
  rewrite <- gas_word, <- strom_word. unfold is_gas_name, is_electricity_name_recursive.
  destruct (contains _ (u "gas")), (contains _ (u "strom")); simpl; intuition congruence.
Qed.
Theorem C58_not_electricity name :
  is_electricity_name name = Some false <-> mentions_word (u "gas") name /\ ~ mentions_word (u "strom") name.
Proof.
  rewrite <- gas_word, <- strom_word. unfold is_electricity_name, is_gas_name_recursive.
  destruct (contains _ (u "gas")), (contains _ (u "strom")); simpl; intuition congruence.
Qed.
Lemma word_nonempty w s : w <> [] -> mentions_word w s -> s <> [].
Proof. intros N (a & x & b & E & F) ->. destruct a, x; try discriminate. inversion F. now subst. Qed.
Theorem C58_division name d :
  get_division name = Some d <->
  exists s, name = Some s /\
    match d with
    | GAS => mentions_word (u "gas") s
    | ELECTRICITY => mentions_word (u "strom") s /\ ~ mentions_word (u "gas") s
    end.
Proof.
  destruct name as [s|]; [|split; [discriminate|now intros (s & [=] & _)]].
  assert (N : forall w, w <> [] -> mentions_word w s -> truthy s = true)
    by (intros w Hw M; apply truthy_true; exact (word_nonempty w s Hw M)).
  unfold get_division. split.
  - destruct (negb (truthy s)); [discriminate|]. intros H. exists s. split; [easy|].
    destruct (is_gas_name s) as [[]|] eqn:G; simpl in H.
    + injection H as <-. now apply C58_gas.
    + apply C58_not_gas in G. destruct (is_electricity_name s) as [[]|] eqn:E; simpl in H; try discriminate.
      injection H as <-. easy.
    + destruct (is_electricity_name s) as [[]|] eqn:E; simpl in H; try discriminate.
      injection H as <-. split; [now apply C58_electricity|]. intros X. apply C58_gas in X. congruence.
  - intros (s' & [= <-] & H). destruct d.
    + destruct H as [H1 H2]. rewrite (N (u "strom") ltac:(discriminate) H1). simpl.
      destruct (is_gas_name s) as [[]|] eqn:G; simpl; [now apply C58_gas in G| |];
        apply C58_electricity in H1; now rewrite H1.
    + rewrite (N (u "gas") ltac:(discriminate) H). simpl. apply C58_gas in H. now rewrite H.
Qed.
(** a name that mentions both is reported as definitely gas and as definitely electricity *)
Theorem C58_both name : mentions_word (u "gas") name -> mentions_word (u "strom") name ->
  is_gas_name name = Some true /\ is_electricity_name name = Some true /\ get_division (Some name) = Some GAS.
Proof.
  intros G E. split; [now apply C58_gas|]. split; [now apply C58_electricity|]. apply C58_division. now exists name.
Qed.
(** the docstring ("definitely from that division") read as "from that division only" fails *)
Theorem C58_exclusive_refuted :
  ~ forall name, is_gas_name name = Some true -> is_electricity_name name <> Some true.
Proof. intros H. apply (H (u "Strom und Gas")); now vm_compute. Qed.
Print Assumptions C58_gas.
Print Assumptions C58_electricity.
Print Assumptions C58_not_gas.
Print Assumptions C58_not_electricity.
Print Assumptions C58_division.
Print Assumptions C58_both.
Print Assumptions C58_exclusive_refuted.
Example C58_instance :
  get_division (Some (u "Bilanzkreis ErdGAS")) = Some GAS /\ get_division (Some (u "STROMzähler")) = Some ELECTRICITY
  /\ get_division (Some (u "Wasser")) = None /\ get_division None = None
  /\ is_gas_name (u "Stromzähler") = Some false /\ is_gas_name (u "Wasser") = None
  /\ get_division (Some (u "Strom und Gas")) = Some GAS.
Proof. repeat split; now vm_compute. Qed.
Example C58_word : mentions_word (u "gas") (u "ErdGaS 2") /\ ~ mentions_word (u "gas") (u "Ga s").
Proof.
  split.
  - apply gas_word. now vm_compute.
  - intros H. apply gas_word in H. now vm_compute in H.
Qed.

(** ** C59 *)
Theorem C59_boilerplate code :
  is_edifact_boilerplate code = true <->
  code = None \/ code = Some [] \/ exists s, code = Some s /\ (stripped s (u "UNT") \/ stripped s (u "UNZ")).
Proof.
  destruct code as [s|]; [|split; auto]. unfold is_edifact_boilerplate.
  split.
  - destruct s as [|c s]; [now auto|]. change (negb (truthy (c :: s))) with false. cbv iota.
    intros H. right. right. exists (c :: s). split; [easy|]. apply str_in_In in H.
    destruct H as [H|[H|[]]]; [left|right]; rewrite H; apply strip_spec.
  - intros [H|[H|(s' & [= <-] & H)]]; [discriminate|now injection H as ->|].
    destruct s as [|c s]; [easy|]. change (negb (truthy (c :: s))) with false. cbv iota. apply str_in_In.
    destruct H as [H|H]; apply stripped_unique in H; rewrite H; [left|right; left]; easy.
Qed.
Print Assumptions C59_boilerplate.
Example C59_instance :
  is_edifact_boilerplate (Some (u " UNT ")) = true /\ is_edifact_boilerplate (Some (u "UNZ")) = true
  /\ is_edifact_boilerplate None = true /\ is_edifact_boilerplate (Some []) = true
  /\ is_edifact_boilerplate (Some (u " ")) = false /\ is_edifact_boilerplate (Some (u "UNH")) = false
  /\ is_edifact_boilerplate (Some (u "unt")) = false.
Proof. repeat split; now vm_compute. Qed.

(** ** C60 *)
Section C60.
Variables EdifactFormat EdifactFormatVersion : Type.
Variable format_eqb : EdifactFormat -> EdifactFormat -> bool.
Hypothesis format_eqb_spec : forall a b, format_eqb a b = true <-> a = b.
Variable get_format : option pystr -> result EdifactFormat.
Notation new := (@new_EdiMetaData EdifactFormat EdifactFormatVersion format_eqb get_format).

(** an instance comes into being exactly like this *)
Theorem C60_exact pruefi fmt version m :
  new pruefi fmt version = Ok m <->
  exists p f v, pruefi = Some p /\ five_digits p /\ get_format (Some p) = Ok f
    /\ (fmt = Left_out \/ fmt = Given (Some f)) /\ version = Some v /\ m = mkEdi p f v.
Proof.
  unfold new_EdiMetaData. split.
  - intros H. apply bind_ok in H. destruct H as (o & F & H). apply bind_ok in H. destruct H as (p & P & H).
    destruct pruefi as [p'|]; [|discriminate]. injection P as ->.
    apply bind_ok in H. destruct H as ([] & R & H). apply check_re_ok, pruefi_shape in R.
    apply bind_ok in H. destruct H as ([] & K & H). unfold check_consistent in K.
    apply bind_ok in K. destruct K as (f & G & K).
    destruct o as [f'|]; [|discriminate]. simpl in K. destruct (format_eqb f' f) eqn:Q; [|discriminate].
    apply format_eqb_spec in Q. subst f'. destruct version as [v|]; [|discriminate]. injection H as <-.
    exists p, f, v. repeat (split; [easy|]). split; [|easy].
    destruct fmt as [|o]; [now left|]. injection F as ->. now right.
  - intros (p & f & v & -> & P & G & F & -> & ->).
    apply bind_ok. exists (Some f). split.
    { destruct F as [-> | ->]; [|easy]. now rewrite G. }
    simpl. apply pruefi_shape, check_re_ok in P. rewrite P. simpl. unfold check_consistent. rewrite G. simpl.
    assert (Q : format_eqb f f = true) by now apply format_eqb_spec. now rewrite Q.
Qed.
(** hence every instance is consistent, whether or not the format was given *)
Theorem C60_consistent pruefi fmt version m : new pruefi fmt version = Ok m ->
  five_digits (ed_pruefi m) /\ get_format (Some (ed_pruefi m)) = Ok (ed_format m).
Proof. intros H. apply C60_exact in H. destruct H as (p & f & v & -> & P & G & F & -> & ->). easy. Qed.
(** a left out format is the same as the format that belongs to the Pruefidentifikator *)
Theorem C60_default p f version : get_format (Some p) = Ok f ->
  new (Some p) Left_out version = new (Some p) (Given (Some f)) version.
Proof. intros G. unfold new_EdiMetaData. now rewrite G. Qed.
(** a format that does not belong to it is rejected with a ValueError *)
Theorem C60_wrong_format p f g version : get_format (Some p) = Ok f -> g <> f ->
  new (Some p) (Given (Some g)) version = Raise ValueError.
Proof.
  intros G N. unfold new_EdiMetaData. simpl. destruct (check_re re_PRUEFI p) as [[]|e] eqn:R; simpl.
  - unfold check_consistent. rewrite G. simpl. destruct (format_eqb g f) eqn:Q; [|easy]. now apply format_eqb_spec in Q.
  - now rewrite (check_re_raise _ _ _ R).
Qed.
(** a malformed Pruefidentifikator is rejected with a ValueError, unless the search for the
    left out format raises another exception before *)
Theorem C60_malformed p fmt version : ~ five_digits p ->
  new (Some p) fmt version = Raise ValueError
  \/ fmt = Left_out /\ exists e, get_format (Some p) = Raise e /\ new (Some p) fmt version = Raise e.
Proof.
  intros N. assert (R : check_re re_PRUEFI p = Raise ValueError).
  { destruct (check_re re_PRUEFI p) as [[]|e] eqn:R; [now apply check_re_ok, pruefi_shape in R|].
    now rewrite (check_re_raise _ _ _ R). }
  unfold new_EdiMetaData. destruct fmt as [|o].
  - destruct (get_format (Some p)) as [f|e] eqn:G.
    + left. simpl. now rewrite R.
    + right. split; [easy|]. now exists e.
  - left. simpl. now rewrite R.
Qed.
(** None is no Pruefidentifikator, and with a consistent one None is neither a format nor a version *)
Theorem C60_none :
  (forall o version, new None (Given o) version = Raise TypeError)
  /\ (forall p f version, get_format (Some p) = Ok f -> five_digits p ->
        new (Some p) (Given None) version = Raise ValueError
        /\ new (Some p) (Given (Some f)) None = Raise TypeError).
Proof.
  split; [easy|]. intros p f version G P. apply pruefi_shape, check_re_ok in P. unfold new_EdiMetaData. simpl.
  rewrite P. simpl. unfold check_consistent. rewrite G. simpl.
  assert (Q : format_eqb f f = true) by now apply format_eqb_spec. now rewrite Q.
Qed.
End C60.
Print Assumptions C60_exact.
Print Assumptions C60_consistent.
Print Assumptions C60_default.
Print Assumptions C60_wrong_format.
Print Assumptions C60_malformed.
Print Assumptions C60_none.
(** formats and versions as strings; 11... belongs to UTILMD, everything else is unknown *)
Definition ex_format (p : option pystr) : result pystr :=
  match p with Some s => if startswith s (u "11") then Ok (u "UTILMD") else Raise ValueError | None => Raise ValueError end.
Example C60_instance :
  (forall a b, str_eqb a b = true <-> a = b)
  /\ new_EdiMetaData str_eqb ex_format (Some (u "11042")) Left_out (Some (u "FV2210"))
     = Ok (mkEdi (u "11042") (u "UTILMD") (u "FV2210"))
  /\ new_EdiMetaData str_eqb ex_format (Some (u "11042")) (Given (Some (u "MSCONS"))) (Some (u "FV2210")) = Raise ValueError
  /\ new_EdiMetaData str_eqb ex_format (Some (u "1104")) (Given (Some (u "UTILMD"))) (Some (u "FV2210")) = Raise ValueError
  /\ five_digits (u "11042") /\ ~ five_digits (u "01042").
Proof.
  split; [apply str_eqb_eq|]. repeat (split; [now vm_compute|]). split.
  - apply pruefi_shape. now vm_compute.
  - intros H. apply pruefi_shape in H. now vm_compute in H.
Qed.
