(** LogMore.v - what can be read off the log. *)

From Verif Require Import Base BaseFacts Chars Str Net Trie Extract Psl ListSpec ListFacts World Update UpdateSpec WorldFacts
  Calls Logs LogSpec LogProofs LogTold.
From Coq Require Import ZifyBool ZifyNat ZifyN.
Local Open Scope Z_scope.

(** ** The log is determined by the events *)

Section Determined.
Variable to_ascii : bytes -> option bytes.

Lemma line_tells_one : forall line a b, line_tells to_ascii line a -> line_tells to_ascii line b -> a = b.
Proof.
  assert (U : forall line t t', trimmed white_space line t -> trimmed white_space line t' -> t = t').
  { intros line t t' A B. apply trim_space_iff in A. apply trim_space_iff in B. congruence. }
  assert (K : forall line t, trimmed white_space line t -> ~ ignored_text t -> to_ascii t = None ->
    ~ (ignored_line line \/ exists t, trimmed white_space line t /\ to_ascii t <> None)).
  { intros line t T I A [(t' & T' & I')|(t' & T' & A')]; rewrite (U _ _ _ T' T) in *; contradiction. }
  intros line a b [Ha|t T I A] [Hb|t' T' I' A'].
  - reflexivity.
  - destruct (K _ _ T' I' A' Ha).
  - destruct (K _ _ T I A Hb).
  - rewrite (U _ _ _ T T'). reflexivity.
Qed.
Lemma forall2_one : forall A B (R : A -> B -> Prop), (forall a b c, R a b -> R a c -> b = c) ->
  forall l x y, Forall2 R l x -> Forall2 R l y -> x = y.
Proof.
  intros A B R H. induction l as [|a l IH]; intros x y X Y; inversion X; inversion Y; subst; [reflexivity|]. f_equal; [eapply H; eauto|eauto].
Qed.
Lemma text_tells_one : forall text a b, text_tells to_ascii text a -> text_tells to_ascii text b -> a = b.
Proof.
  intros text a b (l & x & L & X & ->) (l' & y & L' & Y & ->). apply has_lines_iff in L. apply has_lines_iff in L'. subst l. subst l'.
  f_equal. eapply forall2_one; eauto. exact line_tells_one.
Qed.
Lemma tells_one : forall e a b, tells to_ascii e a -> tells to_ascii e b -> a = b.
Proof.
  intros [R o x] a b. destruct o; cbn [tells]; try congruence. destruct x; [apply text_tells_one|congruence].
Qed.
Lemma all_tell_fun : forall tr a b, all_tell to_ascii tr a -> all_tell to_ascii tr b -> a = b.
Proof. intros tr a b (x & X & ->) (y & Y & ->). f_equal. eapply forall2_one; eauto. exact tells_one. Qed.

(** The first event that is not part of looking for a list. *)
Lemma first_bad : forall A (P : A -> Prop) a x c b y d, Forall P a -> ~ P x -> Forall P b -> ~ P y -> a ++ x :: c = b ++ y :: d ->
  a = b /\ x = y /\ c = d.
Proof.
  intros A P. induction a as [|h a IH]; intros x c [|k b] y d Fa Nx Fb Ny H; cbn [app] in H.
  - injection H as -> ->. auto.
  - injection H as -> _. inversion Fb; contradiction.
  - injection H as -> _. inversion Fa; contradiction.
  - injection H as -> H. inversion Fa; inversion Fb; subst. destruct (IH x c b y d) as (-> & -> & ->); auto.
Qed.

Lemma read_event : forall path x path' x', Event (ReadFile path) x = Event (ReadFile path') x' -> path = path' /\ x = x'.
Proof.
  intros path x path' x' H.
  assert (G : forall e : event, e = Event (ReadFile path) x ->
    match e with Event o y => match o in sys R return R -> Prop with ReadFile q => fun y => q = path /\ y = x | _ => fun _ => False end y end).
  { intros e ->. auto. }
  specialize (G _ (eq_sym H)). cbn in G. destruct G. auto.
Qed.

Variables (hardcoded : bytes) (n : list_params).

Definition by_last (e : event) (log : list (list item)) (text : bytes) (fallback : bool) : Prop :=
  match e with
  | Event o x => match o in sys R return R -> Prop with
                 | ReadFile path => fun c =>
                     match c with
                     | Some t => text_tells to_ascii t log /\ text = t /\ fallback = false
                     | None => exists lg, text_tells to_ascii hardcoded lg /\ text = hardcoded /\ fallback = true
                         /\ log = [Error (ReadFailed path)] :: [Error (ReadFailed path)] :: fallback_line (Error (ReadFailed path)) :: lg
                     end
                 | OpenDir temp => fun ok => exists lg, text_tells to_ascii hardcoded lg /\ text = hardcoded /\ fallback = true
                     /\ log = fallback_line (Error (FolderFailed temp)) :: lg
                 | TempDir => fun _ => exists lg, text_tells to_ascii hardcoded lg /\ text = hardcoded /\ fallback = true
                     /\ log = fallback_line NilError :: lg
                 | _ => fun _ => False
                 end x
  end.
Definition by_update (rest : list event) (log : list (list item)) (text : bytes) (fallback : bool) : Prop :=
  (ends_in_list rest text /\ all_tell to_ascii rest log /\ fallback = false)
  \/ ((forall t, ~ ends_in_list rest t) /\ exists l1 l2, all_tell to_ascii rest l1 /\ text_tells to_ascii hardcoded l2
       /\ log = l1 ++ fallback_line NilError :: l2 /\ text = hardcoded /\ fallback = true).

Lemma new_kind : forall tr log text fallback, lp_path n <> [] -> new_tells to_ascii hardcoded n tr log text fallback ->
  (exists looks e, Forall looking (looks ++ [e]) /\ tr = looks ++ [e] /\ by_last e log text fallback)
  \/ (exists looks temp path fd rest, Forall looking (looks ++ [Event TempDir temp])
        /\ tr = (looks ++ [Event TempDir temp]) ++ Event (OpenWrite path) fd :: rest
        /\ by_update (Event TempDir temp :: Event (OpenWrite path) fd :: rest) log text fallback).
Proof.
  assert (One : forall e looks, Forall looking looks -> looking e -> Forall looking (looks ++ [e])).
  { intros e looks F H. apply Forall_app. split; [exact F|]. constructor; [exact H|constructor]. }
  intros tr log text fallback Np [looks path t lg Lk T|looks rest t lg Lk U En T|looks lg Lk P T|looks temp lg Lk T|looks path lg Lk T|looks rest l1 l2 Lk U En T1 T2].
  - left. eexists. eexists. split; [|split; [reflexivity|]]; [apply One; [exact Lk|exact I]|]. split; [exact T|]. auto.
  - right. destruct U as (temp & [->|(path & fd & rest' & ->)]).
    { apply (ends_snoc []) in En as (path & X). apply (f_equal read_of) in X. discriminate X. }
    exists looks, temp, path, fd, rest'. split; [apply One; [exact Lk|exact I]|]. split; [rewrite <- app_assoc; reflexivity|]. left. auto.
  - contradiction.
  - left. eexists. eexists. split; [|split; [reflexivity|]]; [apply One; [exact Lk|exact I]|]. cbn [by_last]. exists lg. auto.
  - left. eexists. eexists. split; [|split; [reflexivity|]]; [apply One; [exact Lk|exact I]|]. cbn [by_last]. exists lg. auto.
  - destruct U as (temp & [->|(path & fd & rest' & ->)]).
    + left. eexists. eexists. split; [|split; [reflexivity|]]; [apply One; [exact Lk|exact I]|]. cbn [by_last]. exists l2.
      split; [exact T2|]. split; [reflexivity|]. split; [reflexivity|].
      assert (E : l1 = []) by (eapply all_tell_fun; [exact T1|]; apply (all_tell_one to_ascii _ []); reflexivity). rewrite E. reflexivity.
    + right. exists looks, temp, path, fd, rest'. split; [apply One; [exact Lk|exact I]|]. split; [rewrite <- app_assoc; reflexivity|].
      right. split; [exact En|]. exists l1, l2. auto 10.
Qed.

Lemma by_last_one : forall e l t f l' t' f', by_last e l t f -> by_last e l' t' f' -> l = l' /\ t = t' /\ f = f'.
Proof.
  intros [R o x] l t f l' t' f'. destruct o; cbn [by_last]; try contradiction.
  - intros (g & G & -> & -> & ->) (g' & G' & -> & -> & ->). rewrite (text_tells_one _ _ _ G G'). auto.
  - destruct x.
    + intros (G & -> & ->) (G' & -> & ->). rewrite (text_tells_one _ _ _ G G'). auto.
    + intros (g & G & -> & -> & ->) (g' & G' & -> & -> & ->). rewrite (text_tells_one _ _ _ G G'). auto.
  - intros (g & G & -> & -> & ->) (g' & G' & -> & -> & ->). rewrite (text_tells_one _ _ _ G G'). auto.
Qed.
Lemma ends_one : forall tr t t', ends_in_list tr t -> ends_in_list tr t' -> t = t'.
Proof.
  intros tr t t' (b & q & ->) (b' & q' & X). apply app_inj_tail in X as (_ & X). apply read_event in X as (_ & X). congruence.
Qed.
Lemma by_update_one : forall rest l t f l' t' f', by_update rest l t f -> by_update rest l' t' f' -> l = l' /\ t = t' /\ f = f'.
Proof.
  intros rest l t f l' t' f' [(E & A & ->)|(E & l1 & l2 & A & B & -> & -> & ->)] [(E' & A' & ->)|(E' & l1' & l2' & A' & B' & -> & -> & ->)].
  - rewrite (ends_one _ _ _ E E'), (all_tell_fun _ _ _ A A'). auto.
  - destruct (E' _ E).
  - destruct (E _ E').
  - rewrite (all_tell_fun _ _ _ A A'), (text_tells_one _ _ _ B B'). auto.
Qed.
Lemma new_tells_one : forall tr l t f l' t' f', lp_path n <> [] ->
  new_tells to_ascii hardcoded n tr l t f -> new_tells to_ascii hardcoded n tr l' t' f' -> l = l' /\ t = t' /\ f = f'.
Proof.
  intros tr l t f l' t' f' Np A B.
  assert (NW : forall path fd, ~ looking (Event (OpenWrite path) fd)) by (intros path fd H; exact H).
  assert (K : forall a b path fd rest, Forall looking a -> a = b ++ Event (OpenWrite path) fd :: rest -> False).
  { intros a b path fd rest F ->. apply Forall_app in F as (_ & F). inversion F. contradiction. }
  apply new_kind in A; [|exact Np]. apply new_kind in B; [|exact Np].
  destruct A as [(k & e & F & -> & A)|(k & temp & path & fd & rest & F & -> & A)];
    destruct B as [(k' & e' & F' & X & B)|(k' & temp' & path' & fd' & rest' & F' & X & B)].
  - apply app_inj_tail in X as (_ & <-). eapply by_last_one; eauto.
  - destruct (K _ _ _ _ _ F X).
  - symmetry in X. destruct (K _ _ _ _ _ F' X).
  - apply (first_bad _ looking) in X as (X1 & X2 & <-); [|auto..]. rewrite X2 in A.
    apply app_inj_tail in X1 as (_ & X1). rewrite X1 in A. eapply by_update_one; eauto.
Qed.
End Determined.

(** ** Single lines *)

Lemma tells_updated : forall to_ascii e log, tells to_ascii e log -> (In updated_line log <-> exists data, write_of e = Some (data, true)).
Proof.
  intros to_ascii [R o x] log H.
  assert (X : forall lines logs, Forall2 (line_tells to_ascii) lines logs -> ~ In updated_line (concat logs)).
  { intros lines logs. induction 1 as [|l lg lines logs L F IH]; [intros []|]. cbn [concat]. rewrite in_app_iff. intros [I|I]; [|auto].
    destruct L as [_|t _ _ _]; [destruct I|]. destruct I as [I|[]]. unfold updated_line in I. discriminate I. }
  destruct o; cbn [tells write_of] in *; try (subst log; split; [intros []|intros (d & D); discriminate]).
  - destruct x as [text|].
    + destruct H as (lines & logs & _ & F & ->). split; [intros I; destruct (X _ _ F I)|intros (d & D); discriminate].
    + subst log. split; [intros [I|[I|[]]]; discriminate I|intros (d & D); discriminate].
  - destruct x; subst log; (split; [|intros (d & D); discriminate]); [intros []|intros [I|[]]; discriminate I].
  - destruct x; subst log; split; [eauto|left; reflexivity|intros [I|[]]; discriminate I|intros (d & D); discriminate].
  - subst log. split; [|intros (d & D); discriminate]. destruct x as [|st b c]; [intros [I|[]]; discriminate I|].
    destruct (st =? 200); [destruct c; [intros []|]|]; intros [I|[]]; discriminate I.
Qed.

Section Lines.
Variable to_ascii : bytes -> option bytes.
Variable hardcoded : bytes.

Lemma text_no_fallback : forall text log reason, text_tells to_ascii text log -> ~ In (fallback_line reason) log.
Proof.
  intros text log reason (lines & logs & _ & F & ->). induction F as [|l lg lines logs L F IH]; [intros []|]. cbn [concat]. rewrite in_app_iff.
  intros [I|I]; [|auto]. destruct L as [_|t _ _ _]; [destruct I|]. destruct I as [I|[]]. discriminate I.
Qed.
Lemma text_no_updated : forall text log, text_tells to_ascii text log -> ~ In updated_line log.
Proof.
  intros text log (lines & logs & _ & F & ->). induction F as [|l lg lines logs L F IH]; [intros []|]. cbn [concat]. rewrite in_app_iff.
  intros [I|I]; [|auto]. destruct L as [_|t _ _ _]; [destruct I|]. destruct I as [I|[]]. discriminate I.
Qed.
Lemma tells_no_fallback : forall e log reason, tells to_ascii e log -> ~ In (fallback_line reason) log.
Proof.
  intros [R o x] log reason H. destruct o; cbn [tells] in H; try (subst log; intros []).
  - destruct x as [text|]; [eapply text_no_fallback; eauto|]. subst log. intros [I|[I|[]]]; discriminate I.
  - destruct x; subst log; [intros []|intros [I|[]]; discriminate I].
  - destruct x; subst log; intros [I|[]]; discriminate I.
  - subst log. destruct x as [|st b c]; [intros [I|[]]; discriminate I|].
    destruct (st =? 200); [destruct c; [intros []|]|]; intros [I|[]]; discriminate I.
Qed.
Lemma all_updated : forall tr log, all_tell to_ascii tr log -> (In updated_line log <-> exists data, wrote tr data true).
Proof.
  intros tr log (logs & F & ->). unfold wrote. induction F as [|e lg tr logs T F IH].
  - split; [intros []|intros (d & e & [] & _)].
  - cbn [concat]. rewrite in_app_iff, (tells_updated _ _ _ T), IH. split.
    + intros [(d & D)|(d & e' & I & D)]; exists d; [exists e; cbn; auto|exists e'; cbn; auto].
    + intros (d & e' & [<-|I] & D); [left; eauto|right; eauto].
Qed.
Lemma all_no_fallback : forall tr log reason, all_tell to_ascii tr log -> ~ In (fallback_line reason) log.
Proof.
  intros tr log reason (logs & F & ->). induction F as [|e lg tr logs T F IH]; [intros []|].
  cbn [concat]. rewrite in_app_iff. intros [I|I]; [|auto]. exact (tells_no_fallback _ _ _ T I).
Qed.
Lemma looking_no_write : forall looks data ok, Forall looking looks -> ~ wrote looks data ok.
Proof.
  intros looks data ok F (e & I & W). rewrite Forall_forall in F. apply F in I. destruct e as [R o x]. destruct o; cbn in *; try discriminate; contradiction.
Qed.
Lemma wrote_app : forall a b data ok, wrote (a ++ b) data ok <-> wrote a data ok \/ wrote b data ok.
Proof.
  intros a b data ok. unfold wrote. split.
  - intros (e & I & W). apply in_app_iff in I as [I|I]; [left|right]; eauto.
  - intros [(e & I & W)|(e & I & W)]; exists e; rewrite in_app_iff; auto.
Qed.

Lemma new_updated_line : forall n tr log text fallback, new_tells to_ascii hardcoded n tr log text fallback ->
  (In updated_line log <-> exists data, wrote tr data true).
Proof.
  assert (One : forall e looks data, Forall looking looks -> looking e -> ~ wrote (looks ++ [e]) data true).
  { intros e looks data F H. apply looking_no_write. apply Forall_app. split; [exact F|]. constructor; [exact H|constructor]. }
  intros n tr log text fallback [looks path t lg Lk T|looks rest t lg Lk U En T|looks lg Lk P T|looks temp lg Lk T|looks path lg Lk T|looks rest l1 l2 Lk U En T1 T2].
  - split; [intros I; destruct (text_no_updated _ _ T I)|]. intros (d & W). destruct (One (Event (ReadFile path) (Some t)) looks d Lk I W).
  - rewrite (all_updated _ _ T). split; intros (d & W); exists d; rewrite wrote_app in *; [auto|]. destruct W as [W|W]; [|exact W].
    destruct (looking_no_write _ _ _ Lk W).
  - split; [intros I; destruct (text_no_updated _ _ T I)|]. intros (d & W). destruct (looking_no_write _ _ _ Lk W).
  - split; [intros [I|I]; [discriminate I|destruct (text_no_updated _ _ T I)]|]. intros (d & W). destruct (One (Event (OpenDir temp) false) looks d Lk I W).
  - split; [intros [I|[I|[I|I]]]; [discriminate I..|destruct (text_no_updated _ _ T I)]|]. intros (d & W). destruct (One (Event (ReadFile path) None) looks d Lk I W).
  - rewrite in_app_iff, (all_updated _ _ T1). split.
    + intros [(d & W)|[I|I]]; [exists d; rewrite wrote_app; auto|discriminate I|destruct (text_no_updated _ _ T2 I)].
    + intros (d & W). rewrite wrote_app in W. destruct W as [W|W]; [destruct (looking_no_write _ _ _ Lk W)|left; eauto].
Qed.
Lemma new_fallback_line : forall n tr log text fallback, new_tells to_ascii hardcoded n tr log text fallback ->
  (fallback = true <-> exists reason, In (fallback_line reason) log)
  /\ (fallback = true -> text = hardcoded)
  /\ (fallback = false -> (exists path, was_read tr path text) \/ (lp_path n = [] /\ text = hardcoded)).
Proof.
  assert (Rd : forall a path (t : bytes), was_read (a ++ [Event (ReadFile path) (Some t)]) path t).
  { intros a path t. exists (Event (ReadFile path) (Some t)). rewrite in_app_iff. cbn. auto. }
  intros n tr log text fallback [looks path t lg Lk T|looks rest t lg Lk U En T|looks lg Lk P T|looks temp lg Lk T|looks path lg Lk T|looks rest l1 l2 Lk U En T1 T2].
  - split; [split; [discriminate|]; intros (q & I); destruct (text_no_fallback _ _ _ T I)|]. split; [discriminate|]. left. exists path. apply Rd.
  - split; [split; [discriminate|]; intros (q & I); destruct (all_no_fallback _ _ _ T I)|]. split; [discriminate|]. left.
    destruct En as (before & path & ->). exists path. rewrite app_assoc. apply Rd.
  - split; [split; [discriminate|]; intros (q & I); destruct (text_no_fallback _ _ _ T I)|]. split; [discriminate|]. right. auto.
  - split; [split; [|reflexivity]; intros _; eexists; left; reflexivity|]. split; [reflexivity|discriminate].
  - split; [split; [|reflexivity]; intros _; eexists; right; right; left; reflexivity|]. split; [reflexivity|discriminate].
  - split; [split; [|reflexivity]; intros _; eexists; rewrite in_app_iff; right; left; reflexivity|]. split; [reflexivity|discriminate].
Qed.
End Lines.

(** ** New and Update *)

Section Runs.
Variable E : Type.
Variable step : forall R : Type, sys R -> E -> R -> E -> Prop.
Variable to_ascii : bytes -> option bytes.
Variable hardcoded : bytes.

Lemma update_success : forall f e m tr e' m', runs step (update to_ascii hardcoded f) e m tr e' m' (Ret None) -> exists data, wrote tr data true.
Proof.
  intros f e m tr e' m' H.
  apply update_runs in H as (temp & e1 & tr1 & S & -> & [(N & X & _)|(P & file & e2 & tr2 & S2 & -> & H)]); [discriminate|].
  destruct H as [(_ & X & _)|(fd & tr3 & tr4 & e3 & u & -> & -> & Hu & [(er & _ & X & _)|(-> & x & S3 & -> & _)])]; [discriminate..|].
  apply update_file_runs in Hu as (_ & [(_ & b & s & a & trs & trl & _ & F & L & ->)|(X & _)]); [|discriminate].
  remember true as ok eqn:Ok. destruct L as [| | | |body Hb]; try discriminate Ok. exists body, (Event (Write fd body) true).
  split; [|reflexivity]. rewrite <- app_assoc. right. right. rewrite in_app_iff. right. cbn. auto.
Qed.

Lemma c100_update : forall f e m tr e' m' r, work_runs step (update_log to_ascii hardcoded f) e m tr e' m' r ->
  all_tell to_ascii (plain tr) (log_of tr)
  /\ (In updated_line (log_of tr) <-> exists data, wrote (plain tr) data true)
  /\ (r = Ret None -> In updated_line (log_of tr)).
Proof.
  intros f e m tr e' m' r H. pose proof (update_told _ _ _ _ _ _ _ _ _ _ _ H) as T. split; [exact T|].
  pose proof (all_updated _ _ _ T) as U. split; [exact U|]. intros ->. apply U.
  pose proof (mirrors_runs _ step _ _ _ _ _ (update_mirrors to_ascii hardcoded f) _ _ _ _ _ _ H) as R. eapply update_success. exact R.
Qed.
Lemma c100_new_lines : forall n e m tr e' m' r, work_runs step (new_log to_ascii hardcoded n) e m tr e' m' r ->
  exists f, r = Ret (f, None)
  /\ (In updated_line (log_of tr) <-> exists data, wrote (plain tr) data true)
  /\ ((exists reason, In (fallback_line reason) (log_of tr)) ->
        serves to_ascii m' f (lp_private n) hardcoded /\ x_path (m_extractor m' f) = [])
  /\ ((forall reason, ~ In (fallback_line reason) (log_of tr)) -> exists text, serves to_ascii m' f (lp_private n) text
        /\ ((exists path, was_read (plain tr) path text) \/ (lp_path n = [] /\ text = hardcoded))).
Proof.
  intros n e m tr e' m' r H. apply new_told in H as (f & text & fb & -> & T & S & X). exists f. split; [reflexivity|].
  split; [exact (new_updated_line _ _ _ _ _ _ _ T)|]. apply new_fallback_line in T as (Fb & Ft & Ff). split.
  - intros G. apply Fb in G. rewrite (Ft G) in S. auto.
  - intros G. exists text. split; [exact S|]. apply Ff. destruct fb; [|reflexivity]. exfalso. destruct (proj1 Fb eq_refl) as (q & I). exact (G q I).
Qed.
End Runs.
