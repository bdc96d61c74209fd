(** LinExact.v - the machine of LinSpec.v leaves nothing open: what a call has been answered
    determines its effect. *)

From Verif Require Import Base BaseFacts Chars Str Extract Psl ListSpec ListFacts World Update UpdateSpec Calls NewSpec ErrSpec
  CompleteProofs LibSpec LinSpec LinProofs.
From Coq Require Import ZifyBool ZifyNat ZifyN.
Local Open Scope Z_scope.

(** Events without their types. *)
Inductive plain :=
| PTemp (t : bytes) | PAbs (p : bytes) (a : option bytes) | PStat (p : bytes) (s : option (bool * Z)) | PNow (t : Z)
| PRead (p : bytes) (c : option bytes) | POpenDir (p : bytes) (b : bool) | POpenWrite (p : bytes) (fd : option nat)
| PSeek (fd : nat) (b : bool) | PWrite (fd : nat) (d : bytes) (b : bool) | PHttp (url : bytes) (r : response).
Definition plain_of (e : event) : plain :=
  match e with
  | Event o x => match o in sys R return R -> plain with
                 | TempDir => PTemp
                 | Abs p => PAbs p
                 | Stat p => PStat p
                 | Now => PNow
                 | ReadFile p => PRead p
                 | OpenDir p => POpenDir p
                 | OpenWrite p => POpenWrite p
                 | SeekStart fd => PSeek fd
                 | Write fd d => PWrite fd d
                 | HttpGet url => PHttp url
                 end x
  end.

Ltac plain E :=
  let P := fresh "P" in
  pose proof (f_equal (map plain_of) E) as P; rewrite ?map_app in P; cbn [map app plain_of] in P;
  try discriminate P; injection P; clear P; intros; subst.

Lemma looks_prefix : forall path tr o tr' o' r r', looks path tr o -> looks path tr' o' -> tr ++ r = tr' ++ r' ->
  tr = tr' /\ o = o' /\ r = r'.
Proof.
  intros path tr o tr' o' r r' H H' E.
  assert (G : tr = tr' /\ o = o').
  { destruct H as [p q mt now text T M|p abs q c T Q|p abs q dir mt now c T Q C]; destruct H' as [p' q' mt' now' text' T' M'|p' abs' q' c' T' Q'|p' abs' q' dir' mt' now' c' T' Q' C'];
      plain E; try (split; reflexivity).
    - exfalso. destruct abs' as [z|]; [|discriminate]. destruct C' as [C'|[C'|C']]; try discriminate. exact (C' _ eq_refl M).
    - exfalso. destruct abs as [z|]; [|discriminate]. destruct C as [C|[C|C]]; try discriminate. exact (C _ eq_refl M'). }
  destruct G as (<- & ->). split; [reflexivity|]. split; [reflexivity|]. eapply app_inv_head. exact E.
Qed.

Lemma attempt_prefix : forall file s tr ok tr' ok' r r', attempt file s tr ok -> attempt file s tr' ok' -> tr ++ r = tr' ++ r' ->
  tr = tr' /\ ok = ok' /\ r = r'.
Proof.
  intros file s tr ok tr' ok' r r' H H' E.
  assert (G : tr = tr' /\ ok = ok' \/ (length tr <> length tr')).
  { destruct H as [resp N|body N|body M|body M|body M]; destruct H' as [resp' N'|body' N'|body' M'|body' M'|body' M'];
      plain E; try (left; split; reflexivity); try (exfalso; eapply N; reflexivity); try (exfalso; eapply N'; reflexivity);
      try contradiction. }
  destruct G as [(<- & ->)|G].
  - split; [reflexivity|]. split; [reflexivity|]. eapply app_inv_head. exact E.
  - exfalso. destruct H as [resp N|body N|body M|body M|body M]; destruct H' as [resp' N'|body' N'|body' M'|body' M'|body' M'];
      plain E; try (apply G; reflexivity); try (eapply N; reflexivity); try (eapply N'; reflexivity); try contradiction.
Qed.

Lemma attempts_prefix : forall file sources tr ok, attempts file sources tr ok -> forall tr' ok' r r', attempts file sources tr' ok' ->
  tr ++ r = tr' ++ r' -> tr = tr' /\ ok = ok' /\ r = r'.
Proof.
  intros file sources tr ok H. induction H as [|s rest tr1 tr2 ok At H IH|s rest tr1 At]; intros tr' ok' r r' H' E;
    inversion H' as [|s' rest' tr1' tr2' okx At' As'|s' rest' tr1' At']; subst.
  - auto.
  - rewrite <- !app_assoc in E. destruct (attempt_prefix _ _ _ _ _ _ _ _ At At' E) as (<- & _ & E').
    destruct (IH _ _ _ _ As' E') as (<- & <- & <-). auto.
  - rewrite <- app_assoc in E. destruct (attempt_prefix _ _ _ _ _ _ _ _ At At' E) as (_ & X & _). discriminate X.
  - rewrite <- app_assoc in E. destruct (attempt_prefix _ _ _ _ _ _ _ _ At At' E) as (_ & X & _). discriminate X.
  - destruct (attempt_prefix _ _ _ _ _ _ _ _ At At' E) as (<- & _ & <-). auto.
Qed.

Lemma update_asks_one : forall own tr u tr' u', update_asks own tr u -> update_asks own tr' u' -> tr = tr' -> u = u'.
Proof.
  intros own tr u tr' u' H H' E.
  pose proof (f_equal (map plain_of) E) as P. pose proof (f_equal (fun l => tl (tl l)) E) as T.
  destruct H as [temp N|temp Y|temp file t Y A|temp file t Y A|temp file t text Y A];
    destruct H' as [temp' N'|temp' Y'|temp' file' t' Y' A'|temp' file' t' Y' A'|temp' file' t' text' Y' A']; try reflexivity;
    cbn [map plain_of] in P; try discriminate P; injection P; intros; cbn [tl] in T; subst temp'; try contradiction; subst file'; clear E P.
  - rewrite <- (app_nil_r t) in T. destruct (attempts_prefix _ _ _ _ A _ _ _ _ A' T) as (_ & X & _). discriminate X.
  - rewrite <- (app_nil_r t) in T. destruct (attempts_prefix _ _ _ _ A _ _ _ _ A' T) as (_ & X & _). discriminate X.
  - rewrite <- (app_nil_r t') in T. destruct (attempts_prefix _ _ _ _ A _ _ _ _ A' T) as (_ & X & _). discriminate X.
  - destruct (attempts_prefix _ _ _ _ A _ _ _ _ A' T) as (_ & _ & X). plain X.
  - rewrite <- (app_nil_r t') in T. destruct (attempts_prefix _ _ _ _ A _ _ _ _ A' T) as (_ & X & _). discriminate X.
  - destruct (attempts_prefix _ _ _ _ A _ _ _ _ A' T) as (_ & _ & X). plain X.
  - destruct (attempts_prefix _ _ _ _ A _ _ _ _ A' T) as (_ & _ & X). plain X. reflexivity.
Qed.

Definition young (o : option Z) : Prop := exists age, o = Some age /\ age <= 72 * 3600 * 1000000000.
Definition after_read (path : bytes) (r : list event) (x : list_used) : Prop :=
  exists c, r = [Event (ReadFile path) c] /\ x = match c with Some text => ListFile path text | None => BuiltIn end.
Definition after_cache (path : bytes) (r : list event) (x : list_used) : Prop :=
  exists t o r', looks path t o /\ r = t ++ r' /\
    ((young o /\ after_read path r' x)
     \/ (~ young o /\ exists u, update_asks path r' u /\ x = match u with inr text => ListFile path text | inl _ => BuiltIn end)).
Definition after_looking (given : bytes) (o : option Z) (r : list event) (x : list_used) : Prop :=
  match o with
  | Some _ => (given = [] /\ r = [] /\ x = BuiltIn) \/ (given <> [] /\ after_read given r x)
  | None => exists temp (b : bool) r', r = Event TempDir temp :: Event (OpenDir temp) b :: r'
      /\ if b then after_cache (temp ++ str "public_suffix_list.dat") r' x else r' = [] /\ x = BuiltIn
  end.

Lemma new_asks_shape : forall given tr x, new_asks given tr x ->
  exists t o r, looks given t o /\ tr = t ++ r /\ after_looking given o r x.
Proof.
  intros given tr x H.
  destruct H as [t age L G|t age c L G|t temp L|t temp path t2 age c L -> L2 Ag|t temp path t2 old t3 u L -> L2 Ag U].
  - exists t, (Some age), []. rewrite app_nil_r. split; [exact L|]. split; [reflexivity|]. left. auto.
  - exists t, (Some age), [Event (ReadFile given) c]. split; [exact L|]. split; [reflexivity|]. right. split; [exact G|]. exists c. auto.
  - exists t, None, [Event TempDir temp; Event (OpenDir temp) false]. split; [exact L|]. split; [reflexivity|].
    exists temp, false, []. auto.
  - exists t, None. eexists. split; [exact L|]. split; [reflexivity|]. exists temp, true. eexists. split; [reflexivity|].
    exists t2, (Some age). eexists. split; [exact L2|]. split; [reflexivity|]. left. split; [exists age; auto|]. exists c. auto.
  - exists t, None. eexists. split; [exact L|]. split; [reflexivity|]. exists temp, true. eexists. split; [reflexivity|].
    exists t2, old. eexists. split; [exact L2|]. split; [reflexivity|]. right. split; [|exists u; auto].
    intros (age & -> & Y). specialize (Ag age eq_refl). lia.
Qed.

Lemma after_read_one : forall path r x x', after_read path r x -> after_read path r x' -> x = x'.
Proof. intros path r x x' (c & E & ->) (c' & E' & ->). rewrite E in E'. plain E'. reflexivity. Qed.
Lemma after_cache_one : forall path r x x', after_cache path r x -> after_cache path r x' -> x = x'.
Proof.
  intros path r x x' (t & o & r1 & L & E & H) (t' & o' & r1' & L' & E' & H'). rewrite E in E'.
  destruct (looks_prefix _ _ _ _ _ _ _ L L' E') as (_ & <- & <-).
  destruct H as [(Y & H)|(Y & u & H & ->)]; destruct H' as [(Y' & H')|(Y' & u' & H' & ->)]; try contradiction.
  - eapply after_read_one; eauto.
  - rewrite (update_asks_one _ _ _ _ _ H H' eq_refl). reflexivity.
Qed.
Lemma new_asks_one : forall given tr x x', new_asks given tr x -> new_asks given tr x' -> x = x'.
Proof.
  intros given tr x x' H H'. apply new_asks_shape in H as (t & o & r & L & E & H). apply new_asks_shape in H' as (t' & o' & r' & L' & E' & H').
  rewrite E in E'. destruct (looks_prefix _ _ _ _ _ _ _ L L' E') as (_ & <- & <-). clear E E'.
  destruct o as [age|]; cbn [after_looking] in *.
  - destruct H as [(G & _ & ->)|(G & H)]; destruct H' as [(G' & _ & ->)|(G' & H')]; try contradiction; [reflexivity|]. eapply after_read_one; eauto.
  - destruct H as (temp & b & r1 & E & H). destruct H' as (temp' & b' & r1' & E' & H'). rewrite E in E'.
    pose proof (f_equal (fun l => tl (tl l)) E') as T. cbn [tl] in T. subst r1'. clear E. plain E'.
    destruct b'; [eapply after_cache_one; eauto|]. destruct H as (_ & ->). destruct H' as (_ & ->). reflexivity.
Qed.

Lemma c85_determined : forall to_ascii hardcoded ext views c tr a views1 a' views2,
  effect to_ascii hardcoded ext views c tr a views1 -> effect to_ascii hardcoded ext views c tr a' views2 ->
  (a = a' /\ views1 = views2)
  \/ exists n f f' v, c = CallNew n /\ a = FromNew (f, None) /\ a' = FromNew (f', None)
       /\ views1 = with_view views f v /\ views2 = with_view views f' v.
Proof.
  intros to_ascii hardcoded ext views c tr a views1 a' views2 H H'.
  destruct H as [n tr f x V A|f v tr e V A|f v tr text V A|f v rules p r e V U X].
  - inversion H' as [n' tr' f' x' V' A'| | |]; subst. right. exists n, f, f', (view_of hardcoded (lp_private n) x).
    rewrite (new_asks_one _ _ _ _ A A'). auto.
  - left. inversion H' as [|f' v' tr' e' V' A'|f' v' tr' text' V' A'|]; subst; rewrite V in V'; injection V' as <-;
      pose proof (update_asks_one _ _ _ _ _ A A' eq_refl) as Y; [injection Y as ->; auto|discriminate Y].
  - left. inversion H' as [|f' v' tr' e' V' A'|f' v' tr' text' V' A'|]; subst; rewrite V in V'; injection V' as <-;
      pose proof (update_asks_one _ _ _ _ _ A A' eq_refl) as Y; [discriminate Y|injection Y as ->; auto].
  - left. inversion H' as [| | |f' v' rules' p' r' e' V' U' X']; subst. rewrite V in V'. injection V' as <-.
    apply used_rules_iff in U. apply used_rules_iff in U'. rewrite U in U'. subst rules'.
    destruct (c67_consistent ext rules p) as (r0 & e0 & _ & One). destruct (One _ _ X) as (-> & ->). destruct (One _ _ X') as (-> & ->). auto.
Qed.

(** ** Every execution can be seen *)

Lemma c85_all : forall to_ascii hardcoded ext q,
  pool_steps to_ascii hardcoded ext first_pool q <-> exists l, seen to_ascii hardcoded ext q l.
Proof.
  intros to_ascii hardcoded ext q. split.
  - intros H. remember first_pool as q0 eqn:E. induction H as [q|q1 q2 q3 H IH S].
    + subst q. exists []. apply seen_first.
    + destruct (IH E) as (l & IH'). destruct S; eexists.
      * apply seen_begins; eassumption.
      * eapply seen_asks; eassumption.
      * eapply seen_ends; eassumption.
  - intros (l & H). induction H.
    + apply steps_none.
    + eapply steps_more; [exact IHseen|]. apply starts. assumption.
    + eapply steps_more; [exact IHseen|]. apply works. assumption.
    + eapply steps_more; [exact IHseen|]. apply returns.
Qed.
Lemma c85_trace : forall to_ascii hardcoded ext q l, seen to_ascii hardcoded ext q l ->
  p_trace q = flat_map (fun x => match x with Asks _ e => [e] | _ => [] end) l.
Proof.
  intros to_ascii hardcoded ext q l H. induction H; cbn [p_trace first_pool] in *; rewrite ?flat_map_app; cbn [flat_map].
  - reflexivity.
  - rewrite app_nil_r. exact IHseen.
  - rewrite IHseen. f_equal. clear. induction tr' as [|e tr' IH]; [reflexivity|]. cbn [map flat_map app]. rewrite <- IH. reflexivity.
  - rewrite app_nil_r. exact IHseen.
Qed.
