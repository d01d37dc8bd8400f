(** Property C75: integers and UUIDs that are given as texts. *)
From Coq Require Import Ascii String List NArith ZArith Bool Lia.
From Verif Require Import PyBase PyStr M_Schema S_Numbers L_Base L_Str L_Numbers L_Paths L_Uuid.
Import ListNotations.
Local Open Scope list_scope.

(** an integer field accepts a text exactly if it is a text for an integer, and loads that integer *)
Theorem C75_integers s z : load_int (JStr s) = Ok z <-> number_text 10 s z.
Proof.
  rewrite <- (py_int_spec 10 s z (or_introl eq_refl)). cbn [load_int]. destruct (py_int 10 s); split; congruence.
Qed.
Theorem C75_other_texts s e : load_int (JStr s) = Raise e <-> e = ValidationError /\ forall z, ~ number_text 10 s z.
Proof.
  split.
  - intros H. split; [cbn [load_int] in H; destruct (py_int 10 s); congruence|]. intros z N. apply C75_integers in N. congruence.
  - intros [-> N]. destruct (load_int (JStr s)) as [z|e] eqn:E; [destruct (N z); now apply C75_integers|].
    cbn [load_int] in E. destruct (py_int 10 s); congruence.
Qed.
Theorem C75_one_integer base s z z' : (base = 10 \/ base = 16)%N -> number_text base s z -> number_text base s z' -> z = z'.
Proof. intros B H H'. apply (py_int_spec base s _ B) in H, H'. congruence. Qed.

Lemma plain_digits base s : s <> [] -> forallb is_decimal s = true -> exists ds, digits_of base s ds
  /\ fold_left (fun n d => n * 10 + d)%N ds 0%N = int_of_digits s.
Proof.
  unfold int_of_digits. generalize 0%N as acc. induction s as [|c s IH]; intros acc N D; [congruence|]. cbn [forallb] in D. apply andb_true_iff in D as [Dc D].
  assert (G : digit_of base c (digit_value c)) by (left; auto). destruct s as [|c' s].
  - exists [digit_value c]. split; [now constructor|reflexivity].
  - destruct (IH (acc * 10 + digit_value c)%N ltac:(discriminate) D) as (ds & H & E). exists (digit_value c :: ds). split; [|exact E].
    apply (next_digit base c (digit_value c) [] (c' :: s) ds); auto.
Qed.
(** the text Python writes for an integer is one of its texts, also with whitespace around it *)
Theorem C75_printed_integers before z behind : Forall number_space before -> Forall number_space behind ->
  number_text 10 (before ++ str_of_Z z ++ behind) z.
Proof.
  intros Fa Fb.
  assert (P : forall n, exists ds, digits_of 10 (str_of_N n) ds /\ positional 10 ds = n).
  { intros n. destruct (plain_digits 10 (str_of_N n) (str_of_N_nonempty n) (str_of_N_decimal n)) as (ds & D & E). exists ds. split; [exact D|].
    unfold positional. rewrite E. apply int_of_str. }
  destruct z as [|p|p]; cbn [str_of_Z].
  - destruct (P 0%N) as (ds & D & E). exists before, [], [], (str_of_N 0), behind, ds. rewrite E. auto 10.
  - destruct (P (Npos p)) as (ds & D & E). exists before, [], [], (str_of_N (Npos p)), behind, ds. rewrite E. auto 10.
  - destruct (P (Npos p)) as (ds & D & E). exists before, (u "-"), [], (str_of_N (Npos p)), behind, ds. rewrite E. auto 10.
Qed.

(** a UUID field accepts a text exactly if it is a text for a UUID, and loads that UUID *)
Theorem C75_uuids s n : load_uuid (JStr s) = Ok n <-> uuid_text s n.
Proof. rewrite <- (uuid_spec s n). cbn [load_uuid]. destruct (uuid_of_str s); split; congruence. Qed.
Theorem C75_other_uuids s e : load_uuid (JStr s) = Raise e <-> e = ValidationError /\ forall n, ~ uuid_text s n.
Proof.
  split.
  - intros H. split; [cbn [load_uuid] in H; destruct (uuid_of_str s); congruence|]. intros z N. apply C75_uuids in N. congruence.
  - intros [-> N]. destruct (load_uuid (JStr s)) as [z|e] eqn:E; [destruct (N z); now apply C75_uuids|].
    cbn [load_uuid] in E. destruct (uuid_of_str s); congruence.
Qed.
(** the text Python writes for a UUID is one of its texts *)
Theorem C75_printed_uuids n : (n < 2 ^ 128)%N -> uuid_text (str_of_uuid n) n.
Proof. intros H. apply uuid_spec. now apply uuid_round_trip. Qed.
Print Assumptions C75_integers.
Print Assumptions C75_other_texts.
Print Assumptions C75_one_integer.
Print Assumptions C75_printed_integers.
Print Assumptions C75_uuids.
Print Assumptions C75_other_uuids.
Print Assumptions C75_printed_uuids.
Example C75_instance :
  number_text 10 [133; 45; 1633; 95; 50; 10]%N (-12)
  /\ uuid_text (u "urn:uuid:{00000000-0000-0000-0000-0000000000Ff}") 255
  /\ uuid_text (u "uuid:+0x0000000000-0000000000000000_01") 1
  /\ (forall z, ~ number_text 10 (u "0x10") z) /\ (forall z, ~ number_text 10 [28; 49]%N z)
  /\ (forall z, ~ number_text 10 (u "1__0") z) /\ (forall z, ~ number_text 10 (u "- 1") z) /\ (forall z, ~ number_text 10 (u "1.0") z)
  /\ (forall n, ~ uuid_text (u "{00000000-0000-0000-0000-0000000000}") n).
Proof.
  assert (NN : forall s, py_int 10 s = None -> forall z, ~ number_text 10 s z).
  { intros s E z H. apply (py_int_spec 10 s z (or_introl eq_refl)) in H. congruence. }
  split; [apply py_int_spec; [now left|vm_compute; reflexivity]|].
  split; [apply uuid_spec; vm_compute; reflexivity|].
  split; [apply uuid_spec; vm_compute; reflexivity|].
  do 5 (split; [apply NN; vm_compute; reflexivity|]).
  intros n H. apply uuid_spec in H. vm_compute in H. discriminate.
Qed.
