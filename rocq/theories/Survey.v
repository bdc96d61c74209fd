(** Survey.v - a fast check of where a rule list is not regular, with a search tree of the
    beginnings of rules. *)

From Verif Require Import Base BaseFacts RuleSpec TrieFacts PslProofs.
From Coq Require Import FMapPositive.

(** ** Keys: paths as binary numbers *)

Fixpoint bits (p : positive) (rest : positive) : positive :=
  match p with
  | xH => xI (xI rest)
  | xO p' => xO (xO (bits p' rest))
  | xI p' => xO (xI (bits p' rest))
  end.
Fixpoint label_key (l : bytes) (rest : positive) : positive :=
  match l with
  | [] => xI (xO rest)
  | b :: l' => bits (N.succ_pos b) (label_key l' rest)
  end.
Fixpoint key (path : list bytes) : positive :=
  match path with
  | [] => xH
  | l :: path' => label_key l (key path')
  end.

Lemma bits_inj : forall p q x y, bits p x = bits q y -> p = q /\ x = y.
Proof.
  induction p as [p IH|p IH|]; intros [q|q|] x y H; cbn [bits] in H; try discriminate H.
  - injection H as H. apply IH in H as [-> ->]. auto.
  - injection H as H. apply IH in H as [-> ->]. auto.
  - injection H as H. auto.
Qed.
Lemma bits_not : forall p x y, bits p x <> xI (xO y).
Proof. intros [p|p|] x y; discriminate. Qed.
Lemma label_key_inj : forall l l' x y, label_key l x = label_key l' y -> l = l' /\ x = y.
Proof.
  induction l as [|b l IH]; intros [|b' l'] x y H; cbn [label_key] in H.
  - injection H as H. auto.
  - symmetry in H. apply bits_not in H. contradiction.
  - apply bits_not in H. contradiction.
  - apply bits_inj in H as [E H]. apply IH in H as [-> ->].
    apply (f_equal Npos) in E. rewrite !N.succ_pos_spec in E. apply N.succ_inj in E. subst b'. auto.
Qed.
Lemma label_key_not : forall l x, label_key l x <> xH.
Proof. intros [|b l] x; cbn [label_key]; [discriminate|]. destruct (N.succ_pos b); discriminate. Qed.
Lemma key_inj : forall p q, key p = key q -> p = q.
Proof.
  induction p as [|l p IH]; intros [|l' q] H; cbn [key] in H.
  - reflexivity.
  - symmetry in H. apply label_key_not in H. contradiction.
  - apply label_key_not in H. contradiction.
  - apply label_key_inj in H as [-> H]. apply IH in H. subst q. reflexivity.
Qed.

(** ** Sets of paths *)

Definition set_of_from (m : PositiveMap.t unit) (ps : list (list bytes)) : PositiveMap.t unit :=
  fold_left (fun m p => PositiveMap.add (key p) tt m) ps m.
Definition set_of (ps : list (list bytes)) : PositiveMap.t unit := set_of_from (PositiveMap.empty unit) ps.
Definition holds (m : PositiveMap.t unit) (p : list bytes) : bool :=
  match PositiveMap.find (key p) m with Some _ => true | None => false end.

Lemma holds_add : forall m p q, holds (PositiveMap.add (key p) tt m) q = true <-> p = q \/ holds m q = true.
Proof.
  intros m p q. unfold holds. destruct (Pos.eq_dec (key q) (key p)) as [E|N].
  - rewrite E, PositiveMap.gss. apply key_inj in E. subst q. tauto.
  - rewrite PositiveMap.gso by exact N. split; [auto|]. intros [->|H]; [contradiction|exact H].
Qed.
Lemma holds_from : forall ps m q, holds (set_of_from m ps) q = true <-> In q ps \/ holds m q = true.
Proof.
  induction ps as [|p ps IH]; intros m q; cbn [set_of_from fold_left]; [cbn [In]; tauto|].
  unfold set_of_from in IH. rewrite IH, holds_add. cbn [In]. tauto.
Qed.
Lemma holds_set : forall ps q, holds (set_of ps) q = true <-> In q ps.
Proof.
  intros ps q. unfold set_of. rewrite holds_from. unfold holds at 1. rewrite PositiveMap.gempty.
  split; [intros [H|H]; [exact H|discriminate]|auto].
Qed.

(** ** Beginnings of paths *)

Fixpoint heads_from (done path : list bytes) : list (list bytes) :=
  match path with
  | [] => []
  | l :: path' => (done ++ [l]) :: heads_from (done ++ [l]) path'
  end.
(** The non-empty beginnings. *)
Definition heads (path : list bytes) : list (list bytes) := heads_from [] path.

Lemma heads_from_iff : forall path done p, In p (heads_from done path) <-> exists a b, a <> [] /\ path = a ++ b /\ p = done ++ a.
Proof.
  induction path as [|l path IH]; intros done p; cbn [heads_from In].
  - split; [intros []|]. intros (a & b & N & E & _). symmetry in E. apply app_eq_nil in E as [E _]. contradiction.
  - rewrite IH. split.
    + intros [<-|(a & b & N & -> & ->)].
      * exists [l], path. split; [discriminate|]. auto.
      * exists (l :: a), b. split; [discriminate|]. split; [reflexivity|]. rewrite <- app_assoc. reflexivity.
    + intros (a & b & N & E & ->). destruct a as [|x a]; [contradiction|]. cbn [app] in E. injection E as <- E.
      destruct a as [|y a]; [left; reflexivity|]. right. exists (y :: a), b. split; [discriminate|]. split; [exact E|].
      rewrite <- app_assoc. reflexivity.
Qed.
Lemma heads_iff : forall path p, In p (heads path) <-> p <> [] /\ exists b, path = p ++ b.
Proof.
  intros path p. unfold heads. rewrite heads_from_iff. split.
  - intros (a & b & N & E & ->). split; [exact N|]. eauto.
  - intros (N & b & E). exists p, b. auto.
Qed.

(** ** The survey *)

Record survey := mkSurvey { v_gaps : list (list bytes); v_hidden : list (list bytes); v_exceptions : bool; v_top : bool }.

Definition star : bytes := str "*".
Definition is_exc (k : bytes) : bool := match k with b :: _ => (b =? 33)%N | [] => false end.

Section Survey.
Variable rules : list bytes.
Let paths := map rule_path rules.
Let begin := set_of (flat_map heads paths).
Let whole := set_of paths.

Definition surveyed : survey :=
  mkSurvey
    (flat_map (fun path => filter (fun p => negb (holds whole p) && negb (holds begin (p ++ [star]))) (heads path)) paths)
    (flat_map (fun path => filter (fun p => holds begin (removelast p ++ [star])) (heads (removelast path))) paths)
    (forallb (fun path => forallb (fun p => negb (is_exc (last p [])) || holds begin (removelast p ++ [star])) (heads path)) paths)
    (negb (holds begin [star])).

Lemma begin_known : forall p, p <> [] -> holds begin p = known rules p.
Proof.
  intros p N. apply eq_true_iff_eq. unfold begin, paths. rewrite holds_set, in_flat_map, known_iff. split.
  - intros (path & Hp & Hh). apply in_map_iff in Hp as (rule & <- & Hr). apply heads_iff in Hh as (_ & b & E). eauto.
  - intros (rule & b & Hr & E). exists (rule_path rule). split; [apply in_map; exact Hr|]. apply heads_iff. eauto.
Qed.
Lemma whole_rule : forall p, holds whole p = is_rule rules p.
Proof.
  intros p. apply eq_true_iff_eq. unfold whole, paths. rewrite holds_set, in_map_iff, is_rule_iff.
  split; intros (rule & A & B); eauto.
Qed.
Lemma snoc_ne : forall (p : list bytes) k, p ++ [k] <> [].
Proof. intros [|x p] k; discriminate. Qed.

Lemma surveyed_gaps : forall p, In p (v_gaps surveyed) <-> gap rules p.
Proof.
  intros p. unfold surveyed, gap. cbn [v_gaps]. rewrite in_flat_map. split.
  - intros (path & Hp & Hf). apply filter_In in Hf as [Hh Hf]. apply andb_true_iff in Hf as [H1 H2].
    rewrite whole_rule in H1. rewrite begin_known in H2 by apply snoc_ne. apply negb_true_iff in H1. apply negb_true_iff in H2.
    apply heads_iff in Hh as (N & b & E). apply in_map_iff in Hp as (rule & <- & Hr).
    split; [exact N|]. split; [apply known_iff; eauto|]. auto.
  - intros (N & K & R & W). apply known_iff in K as (rule & b & Hr & E). exists (rule_path rule).
    split; [apply in_map; exact Hr|]. apply filter_In. split; [apply heads_iff; eauto|].
    rewrite whole_rule, begin_known by apply snoc_ne. rewrite R. unfold star. rewrite W. reflexivity.
Qed.

Lemma surveyed_hidden : forall p, In p (v_hidden surveyed) <-> hidden rules p.
Proof.
  intros p. unfold surveyed, hidden. cbn [v_hidden]. rewrite in_flat_map. split.
  - intros (path & Hp & Hf). apply filter_In in Hf as [Hh Hf]. rewrite begin_known in Hf by apply snoc_ne.
    apply heads_iff in Hh as (N & b & E). apply in_map_iff in Hp as (rule & <- & Hr).
    destruct p as [|k above] using rev_ind; [contradiction|]. clear IHabove. rewrite removelast_last in Hf.
    assert (X : rule_path rule = removelast (rule_path rule) ++ [last (rule_path rule) []]) by (apply app_removelast_last; apply rule_path_nonempty).
    rewrite E in X. destruct (b ++ [last (rule_path rule) []]) as [|x b'] eqn:Y; [apply snoc_ne in Y; contradiction|].
    exists above, k, x. split; [reflexivity|]. split; [exact Hf|]. apply known_iff. exists rule, b'. split; [exact Hr|].
    rewrite X, <- !app_assoc, Y. reflexivity.
  - intros (above & k & x & -> & W & K). apply known_iff in K as (rule & b & Hr & E). exists (rule_path rule).
    split; [apply in_map; exact Hr|]. apply filter_In. split.
    + apply heads_iff. split; [apply snoc_ne|]. rewrite E. destruct b as [|y b] using rev_ind.
      * rewrite app_nil_r, removelast_last. exists []. rewrite app_nil_r. reflexivity.
      * clear IHb. rewrite app_assoc, removelast_last, <- app_assoc. eauto.
    + rewrite removelast_last, begin_known by apply snoc_ne. exact W.
Qed.

Lemma surveyed_exceptions : v_exceptions surveyed = true -> exceptions_ok rules.
Proof.
  intros H above k K. unfold surveyed in H. cbn [v_exceptions] in H. rewrite forallb_forall in H.
  apply known_iff in K as (rule & b & Hr & E). specialize (H (rule_path rule) (in_map _ _ _ Hr)). rewrite forallb_forall in H.
  specialize (H (above ++ [str "!" ++ k])). rewrite last_last, removelast_last, begin_known in H by apply snoc_ne.
  apply H. apply heads_iff. split; [apply snoc_ne|]. eauto.
Qed.

Lemma surveyed_top : v_top surveyed = true -> known rules [str "*"] = false.
Proof.
  intros H. unfold surveyed in H. cbn [v_top] in H. rewrite begin_known in H by discriminate. apply negb_true_iff in H. exact H.
Qed.
End Survey.

(** Lists with the same elements. *)
Definition same_set (a b : list (list bytes)) : bool :=
  let sa := set_of a in let sb := set_of b in forallb (holds sb) a && forallb (holds sa) b.
Lemma same_set_iff : forall a b p, same_set a b = true -> (In p a <-> In p b).
Proof.
  intros a b p H. unfold same_set in H. cbv zeta in H. apply andb_true_iff in H as [H1 H2]. rewrite forallb_forall in H1, H2.
  split; intros I; [specialize (H1 p I); apply holds_set in H1; exact H1|specialize (H2 p I); apply holds_set in H2; exact H2].
Qed.
