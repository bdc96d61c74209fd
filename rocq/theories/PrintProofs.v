(** PrintProofs.v - proofs about the printed output. *)

From Verif Require Import Base BaseFacts Chars Str Net Trie Extract RuleSpec Psl ListSpec ListFacts World Update UpdateSpec
  WorldFacts UpdateProofs FileProofs UrlProofs Calls CallFacts Print PrintSpec.
From Coq Require Import ZifyBool ZifyNat ZifyN.
Local Open Scope N_scope.

Lemma shown_component : forall name value spaced, spaced = heading (str name) ->
  (if negb (len value =? 0)%Z then print left_attrs_filled spaced else print left_attrs_blank spaced)
  ++ println right_attrs value = row_pieces (component name value).
Proof. intros name value spaced ->. unfold row_pieces, component. destruct value; reflexivity. Qed.

Lemma c46 : forall url r n, shows url r n (print_res url r n).
Proof.
  intros url r n. unfold print_res, shows.
  exists (if (n =? 1)%Z then str "hostname" else if (n =? 2)%Z then str "ipv4 address" else if (n =? 3)%Z then str "ipv6 address" else []).
  exists (if (n =? 0)%Z then [FgHiBlack] else [FgHiBlue; Bold]). split; [|split; [|split]].
  - unfold host_type_name. destruct (Z.eqb_spec n 1); [auto|]. destruct (Z.eqb_spec n 2); [auto|].
    destruct (Z.eqb_spec n 3); [auto|]. right. right. right. split; [lia|reflexivity].
  - intros ->. reflexivity.
  - intros N. destruct (Z.eqb_spec n 0); [contradiction|reflexivity].
  - unfold components. cbn [app flat_map]. rewrite <- !app_assoc.
    rewrite <- (shown_component "url" _ (str "              url: ")) by reflexivity.
    rewrite <- (shown_component "scheme" _ (str "           scheme: ")) by reflexivity.
    rewrite <- (shown_component "userinfo" _ (str "         userinfo: ")) by reflexivity.
    rewrite <- (shown_component "subdomain" _ (str "        subdomain: ")) by reflexivity.
    rewrite <- (shown_component "domain" _ (str "           domain: ")) by reflexivity.
    rewrite <- (shown_component "suffix" _ (str "           suffix: ")) by reflexivity.
    rewrite <- (shown_component "registered domain" _ (str "registered domain: ")) by reflexivity.
    rewrite <- (shown_component "port" _ (str "             port: ")) by reflexivity.
    rewrite <- (shown_component "path" _ (str "             path: ")) by reflexivity.
    rewrite <- !app_assoc. do 18 f_equal.
    destruct (Z.eqb_spec n 0) as [->|N0]; [reflexivity|]. cbn [negb].
    destruct (Z.eqb_spec n 1); [reflexivity|]. destruct (Z.eqb_spec n 2); [reflexivity|]. destruct (Z.eqb_spec n 3); reflexivity.
Qed.

Lemma line_inj : forall v1 v2 r1 r2, one_line v1 -> one_line v2 -> v1 ++ 10 :: r1 = v2 ++ 10 :: r2 -> v1 = v2 /\ r1 = r2.
Proof.
  unfold one_line. induction v1 as [|x v1 IH]; intros [|y v2] r1 r2 H1 H2 E; cbn [app] in E.
  - injection E as ->. auto.
  - injection E as <- _. cbn in H2. tauto.
  - injection E as -> _. cbn in H1. tauto.
  - injection E as -> E. destruct (IH v2 r1 r2) as (-> & ->); cbn in *; auto.
Qed.

Lemma row_plain : forall w rest, plain (row_pieces w ++ rest) = heading (row_name w) ++ row_value w ++ 10 :: plain rest.
Proof.
  intros w rest. unfold plain, row_pieces. cbn [app map concat snd]. rewrite <- app_assoc. reflexivity.
Qed.
Lemma table_inj : forall ws1 ws2 rest1 rest2, map row_name ws1 = map row_name ws2 ->
  Forall (fun w => one_line (row_value w)) ws1 -> Forall (fun w => one_line (row_value w)) ws2 ->
  plain (flat_map row_pieces ws1 ++ rest1) = plain (flat_map row_pieces ws2 ++ rest2) ->
  map row_value ws1 = map row_value ws2 /\ plain rest1 = plain rest2.
Proof.
  induction ws1 as [|w1 ws1 IH]; intros [|w2 ws2] rest1 rest2 N F1 F2 E; cbn [map] in N; try discriminate.
  - cbn [flat_map app] in E. auto.
  - injection N as N1 N2. inversion F1 as [|? ? A1 F1']; subst. inversion F2 as [|? ? A2 F2']; subst.
    cbn [flat_map] in E. rewrite <- !app_assoc, !row_plain, N1 in E. apply app_inv_head in E.
    apply line_inj in E as (E1 & E2); [|assumption..]. destruct (IH ws2 _ _ N2 F1' F2' E2) as (E3 & E4).
    cbn [map]. rewrite E1, E3. auto.
Qed.

Lemma host_type_name_line : forall n name, host_type_name n name -> one_line name.
Proof.
  intros n name [(_ & ->)|[(_ & ->)|[(_ & ->)|(_ & ->)]]] H; cbn in H;
    repeat (destruct H as [H|H]; [discriminate|]); exact H.
Qed.
Lemma host_type_name_inj : forall n1 n2 name, (0 <= n1 <= 3)%Z -> (0 <= n2 <= 3)%Z ->
  host_type_name n1 name -> host_type_name n2 name -> n1 = n2.
Proof.
  unfold host_type_name. intros n1 n2 name B1 B2 H1 H2.
  destruct H1 as [(-> & ->)|[(-> & ->)|[(-> & ->)|(N1 & ->)]]];
    destruct H2 as [(-> & H)|[(-> & H)|[(-> & H)|(N2 & H)]]]; try discriminate H; try reflexivity. lia.
Qed.

Lemma c46_recover : forall url1 r1 url2 r2, one_lines url1 r1 -> one_lines url2 r2 ->
  plain (print_res url1 r1 (host_type_number (r_host_type r1))) = plain (print_res url2 r2 (host_type_number (r_host_type r2))) ->
  url1 = url2 /\ r1 = r2.
Proof.
  intros url1 r1 url2 r2 O1 O2 E.
  destruct (c46 url1 r1 (host_type_number (r_host_type r1))) as (n1 & c1 & N1 & _ & _ & E1).
  destruct (c46 url2 r2 (host_type_number (r_host_type r2))) as (n2 & c2 & N2 & _ & _ & E2).
  rewrite E1, E2 in E. apply table_inj in E; [|reflexivity|..].
  - destruct E as (E & _). cbn [map components app component row_value] in E. injection E as <- e1 e2 e3 e4 e5 e6 e7 e8 e9.
    split; [reflexivity|]. subst n2.
    assert (e10 : r_host_type r1 = r_host_type r2).
    { assert (X : host_type_number (r_host_type r1) = host_type_number (r_host_type r2)).
      { eapply host_type_name_inj; [| |exact N1|exact N2]; [destruct (r_host_type r1)|destruct (r_host_type r2)]; cbn; lia. }
      destruct (r_host_type r1), (r_host_type r2); cbn in X; try discriminate X; reflexivity. }
    destruct r1, r2; cbn in *; subst; reflexivity.
  - unfold one_lines in O1. repeat match goal with H : Forall _ (_ :: _) |- _ => inversion H; clear H; subst end.
    apply host_type_name_line in N1. cbn [components app]. repeat constructor; cbn [row_value component]; assumption.
  - unfold one_lines in O2. repeat match goal with H : Forall _ (_ :: _) |- _ => inversion H; clear H; subst end.
    apply host_type_name_line in N2. cbn [components app]. repeat constructor; cbn [row_value component]; assumption.
Qed.

(** ** The command *)

Lemma c47 : forall E (step : forall R : Type, sys R -> E -> R -> E -> Prop) to_ascii hardcoded ext quote private ignore puny arg
    e m tr e' m' o,
  runs step (extract_command to_ascii hardcoded ext quote private ignore puny arg) e m tr e' m' o ->
  exists f r er, runs step (new to_ascii hardcoded (mkListParams [] private)) e m tr e' m' (Ret (f, None))
    /\ extract ext (trie_in m' f) (mkParams arg ignore puny) = Ret (r, er)
    /\ o = Ret (Printed (match er with Some er => error_line (err_message quote er) | None => [] end
                         ++ print_res arg r (host_type_number (r_host_type r)))).
Proof.
  intros E step to_ascii hardcoded ext quote private ignore puny arg e m tr e' m' o H.
  unfold extract_command in H. apply runs_bind in H. destruct H as (tr1 & e1 & m1 & o1 & N & H).
  destruct (c34 _ _ _ _ _ _ _ _ _ _ _ N) as (f & -> & _). destruct H as (tr2 & -> & H).
  apply runs_bind in H. destruct H as (tr3 & e3 & m3 & o3 & X & H). apply c43_read_only in X as (-> & -> & -> & X).
  destruct (c01 ext (trie_in m1 f) (mkParams arg ignore puny)) as (r & er & Er). rewrite Er in X. subst o3.
  destruct H as (tr4 & -> & H). cbn [ret runs] in H. destruct H as (-> & -> & -> & ->).
  exists f, r, er. rewrite app_nil_r. cbn [app]. split; [exact N|]. split; [exact Er|]. destruct er; reflexivity.
Qed.

Lemma c47_fresh : forall to_ascii hardcoded ext quote private ignore puny arg d m tr d' m' o text mtime,
  disk_ok d -> no_list_at d [] -> unpadded (default_path d) -> can_open d (d_temp d) ->
  list_at d (default_path d) text mtime -> (d_now d' - mtime <= 72 * 3600 * 1000000000)%Z ->
  runs disk_step (extract_command to_ascii hardcoded ext quote private ignore puny arg) d m tr d' m' o ->
  exists rules t r er output, used_rules to_ascii text private rules /\ build_trie rules = Ret t
    /\ extract ext t (mkParams arg ignore puny) = Ret (r, er)
    /\ shows arg r (host_type_number (r_host_type r)) output
    /\ o = Ret (Printed (match er with Some er => error_line (err_message quote er) | None => [] end ++ output)).
Proof.
  intros to_ascii hardcoded ext quote private ignore puny arg d m tr d' m' o text mtime Ok N U C L T H.
  apply c47 in H as (f & r & er & H & E & ->).
  destruct (c37_fresh _ _ (mkListParams [] private) [] _ _ _ _ _ _ _ _ Ok ltac:(apply trim_space_iff; reflexivity) N U C H L T) as (g & X & (rules & R & B) & _).
  apply Ret_inj in X. injection X as <-.
  exists rules, (trie_in m' f), r, er. eexists. split; [exact R|]. split; [exact B|]. split; [exact E|].
  split; [apply c46|reflexivity].
Qed.

Lemma c47_shows : forall E (step : forall R : Type, sys R -> E -> R -> E -> Prop) to_ascii hardcoded ext quote private ignore puny arg
    e m tr e' m' o,
  runs step (extract_command to_ascii hardcoded ext quote private ignore puny arg) e m tr e' m' o ->
  exists f r er output, runs step (new to_ascii hardcoded (mkListParams [] private)) e m tr e' m' (Ret (f, None))
    /\ extract ext (trie_in m' f) (mkParams arg ignore puny) = Ret (r, er)
    /\ shows arg r (host_type_number (r_host_type r)) output
    /\ o = Ret (Printed (match er with Some er => error_line (err_message quote er) | None => [] end ++ output)).
Proof.
  intros. apply c47 in H as (f & r & er & N & X & ->). exists f, r, er. eexists. split; [exact N|]. split; [exact X|].
  split; [apply c46|reflexivity].
Qed.
