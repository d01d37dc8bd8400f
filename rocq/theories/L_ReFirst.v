(** The matcher of PyRe lists all ways to match; the first of them is found without making the list. *)
From Coq Require Import List NArith Arith Lia.
From Verif Require Import PyBase PyStr PyRe M_Tree.
Import ListNotations.
Local Open Scope list_scope.

(** the first success *)
Definition or_else {A} (o : option A) (next : unit -> option A) : option A :=
  match o with Some x => Some x | None => next tt end.

Section StarFirst.
  Context {A : Type}.
  Variable greedy : bool.
  Variable step : rst -> (rst -> option A) -> option A.
  Fixpoint star_first (fuel : nat) (st : rst) (k : rst -> option A) : option A :=
    match fuel with
    | O => k st
    | S f =>
        if greedy
        then or_else (step st (fun st' => if st_pos st <? st_pos st' then star_first f st' k else None)) (fun _ => k st)
        else or_else (k st) (fun _ => step st (fun st' => if st_pos st <? st_pos st' then star_first f st' k else None))
    end.
End StarFirst.

Fixpoint first_run (r : re) {A} (st : rst) (k : rst -> option A) : option A :=
  match r with
  | RChar p => match st_rest st with
               | c :: t => if p c then k (mkst (S (st_pos st)) t (st_caps st)) else None
               | [] => None
               end
  | REps => k st
  | RSeq a b => first_run a st (fun st' => first_run b st' k)
  | RAlt a b => or_else (first_run a st k) (fun _ => first_run b st k)
  | RStar g a => star_first g (fun st k => first_run a st k) (length (st_rest st)) st k
  | RCap n a => first_run a st (fun st' => k (mkst (st_pos st') (st_rest st')
                  ((n, firstn (st_pos st' - st_pos st) (st_rest st)) :: st_caps st')))
  | RBol => match st_pos st with O => k st | S _ => None end
  | REol => match st_rest st with
            | [] => k st
            | [c] => if N.eqb c chr_newline then k st else None
            | _ => None
            end
  | RNot a => match first_run a st (fun _ => Some tt) with None => k st | Some _ => None end
  end.

Fixpoint first_some {B A} (k : B -> option A) (l : list B) : option A :=
  match l with [] => None | x :: r => or_else (k x) (fun _ => first_some k r) end.

Lemma first_some_app {B A} (k : B -> option A) l m : first_some k (l ++ m) = or_else (first_some k l) (fun _ => first_some k m).
Proof. induction l as [|x l IH]; cbn; [reflexivity|]. rewrite IH. now destruct (k x). Qed.
Lemma first_some_flat_map {C B A} (k : B -> option A) (f : C -> list B) l :
  first_some k (flat_map f l) = first_some (fun x => first_some k (f x)) l.
Proof. induction l as [|x l IH]; cbn; [reflexivity|]. rewrite first_some_app, IH. reflexivity. Qed.
Lemma first_some_map {C B A} (k : B -> option A) (f : C -> B) l : first_some k (map f l) = first_some (fun x => k (f x)) l.
Proof. induction l as [|x l IH]; cbn; [reflexivity|]. now rewrite IH. Qed.
Lemma first_some_ext {B A} (k k' : B -> option A) l : (forall x, k x = k' x) -> first_some k l = first_some k' l.
Proof. intros H. induction l as [|x l IH]; cbn; [reflexivity|]. now rewrite H, IH. Qed.
Lemma or_else_none {A} (o : option A) : or_else o (fun _ => None) = o.
Proof. now destruct o. Qed.

Lemma star_first_runs {A} g (step : rst -> (rst -> option A) -> option A) (stp : rst -> list rst) :
  (forall st k, step st k = first_some k (stp st)) ->
  forall fuel st k, star_first g step fuel st k = first_some k (star_runs g stp fuel st).
Proof.
  intros H. induction fuel as [|f IH]; intros st k; [cbn; now rewrite or_else_none|].
  change (star_first g step (S f) st k) with (if g then or_else (step st (fun st' => if st_pos st <? st_pos st' then star_first g step f st' k else None)) (fun _ => k st) else or_else (k st) (fun _ => step st (fun st' => if st_pos st <? st_pos st' then star_first g step f st' k else None))).
  cbn [star_runs].
  assert (M : step st (fun st' => if st_pos st <? st_pos st' then star_first g step f st' k else None)
              = first_some k (flat_map (fun st' => if st_pos st <? st_pos st' then star_runs g stp f st' else []) (stp st))).
  { rewrite H, first_some_flat_map. apply first_some_ext. intros x. destruct (st_pos st <? st_pos x); [apply IH|reflexivity]. }
  rewrite M. destruct g.
  - rewrite first_some_app. cbn [first_some]. now rewrite or_else_none.
  - reflexivity.
Qed.

Lemma first_run_runs r : forall A st (k : rst -> option A), first_run r st k = first_some k (runs r st).
Proof.
  induction r; intros A st k; cbn.
  - destruct (st_rest st) as [|c t]; [reflexivity|]. destruct (p c); cbn; [now rewrite or_else_none|reflexivity].
  - now rewrite or_else_none.
  - rewrite IHr1, first_some_flat_map. apply first_some_ext. intros x. apply IHr2.
  - rewrite IHr1, IHr2, first_some_app. reflexivity.
  - apply star_first_runs. intros st' k'. apply IHr.
  - rewrite IHr, first_some_map. reflexivity.
  - destruct (st_pos st); cbn; [now rewrite or_else_none|reflexivity].
  - destruct (st_rest st) as [|c [|d t]]; cbn; try now rewrite or_else_none.
    + destruct (N.eqb c chr_newline); cbn; [now rewrite or_else_none|reflexivity].
    + reflexivity.
  - rewrite IHr. destruct (runs r st); cbn; [now rewrite or_else_none|reflexivity].
Qed.

(** pattern.match(s) *)
Lemma re_match_first r s : re_match r s = first_run r (start s) Some.
Proof. rewrite first_run_runs. unfold re_match. now destruct (runs r (start s)). Qed.

(** _parser.parse(text) *)
Definition lark_parse_first (text : pystr) : result pystr :=
  let s := skip_ws text in
  match first_run SEGMENT_GROUP_CHAIN (start s) Some with
  | None => Raise LarkError
  | Some st => match skip_ws (st_rest st) with [] => Ok (firstn (st_pos st) s) | _ => Raise LarkError end
  end.
Lemma lark_parse_by_first text : lark_parse text = lark_parse_first text.
Proof. unfold lark_parse, lark_parse_first. now rewrite <- re_match_first. Qed.

(** tree_to_sgh.py:46-61 [read_tree] *)
Definition read_tree_first (tree : tree_argument) : result pystr :=
  let* tree_str := match tree with
                   | TreePath n => read_text n
                   | TreeStr s => Ok s
                   | TreeOther => Raise ValueError
                   end in
  lark_parse_first tree_str.
Lemma read_tree_by_first tree : read_tree tree = read_tree_first tree.
Proof. unfold read_tree, read_tree_first. destruct tree as [n|s|]; cbn [bind]; try apply lark_parse_by_first; [|reflexivity].
  destruct (read_text n); cbn [bind]; [apply lark_parse_by_first|reflexivity]. Qed.
