(** ColourProofs.v - what is seen on a terminal. *)

From Verif Require Import Base BaseFacts Extract Print Colour ColourSpec PrintSpec PrintProofs.
From Coq Require Import ZifyBool ZifyNat ZifyN.
Local Open Scope N_scope.

Lemma screen_text : forall t rest st, ~ In 27 t -> screen (t ++ rest) Text st = (in_style st t ++ fst (screen rest Text st), snd (screen rest Text st)).
Proof.
  intros t rest st. induction t as [|c t IH]; intros H; cbn [app in_style map]; [apply surjective_pairing|]. cbn [screen].
  destruct (N.eqb_spec c 27) as [->|D]; [exfalso; apply H; left; reflexivity|]. rewrite IH by (intros I; apply H; right; exact I). reflexivity.
Qed.
Definition code (a : attribute) : N := match a with FgHiYellow => 93 | FgHiBlack => 90 | FgHiWhite => 97 | FgHiBlue => 94 | FgHiRed => 91 | Bold => 1 end.
Definition reset_code (a : attribute) : N := match a with Bold => 22 | _ => 0 end.
Lemma screen_numbers : forall (text : attribute -> bytes) (num : attribute -> N),
  (forall a l rest st, screen (text a ++ rest) (Numbers l 0) st = screen rest (Numbers l (num a)) st) ->
  forall attrs l rest st, attrs <> [] -> screen (join_semicolon (map text attrs) ++ 109 :: rest) (Numbers l 0) st = screen rest Text (fold_left obey (l ++ map num attrs) st).
Proof.
  intros text num T attrs. induction attrs as [|a attrs IH]; intros l rest st Ne; [contradiction|]. destruct attrs as [|b attrs].
  - cbn [map join_semicolon]. rewrite T. reflexivity.
  - change (join_semicolon (map text (a :: b :: attrs))) with (text a ++ str ";" ++ join_semicolon (map text (b :: attrs))).
    rewrite <- !app_assoc, T. change (str ";" ++ ?x) with (59 :: x). cbn [screen]. change (is_digit 59) with false. cbv iota. change (59 =? 59) with true. cbv iota.
    rewrite IH by discriminate. rewrite <- app_assoc. reflexivity.
Qed.
Lemma screen_escape : forall (text : attribute -> bytes) (num : attribute -> N),
  (forall a l rest st, screen (text a ++ rest) (Numbers l 0) st = screen rest (Numbers l (num a)) st) ->
  forall attrs rest st, screen (escape_with (join_semicolon (map text attrs)) ++ rest) Text st
    = screen rest Text (match attrs with [] => default_style | _ => fold_left obey (map num attrs) st end).
Proof.
  intros text num T attrs rest st. unfold escape_with. change (str "m") with [109]. rewrite <- app_comm_cons, <- !app_assoc. change (str "[" ++ ?x) with (91 :: x). cbn [screen].
  change (27 =? 27) with true. change (91 =? 91) with true. cbv iota. destruct attrs as [|a attrs]; [reflexivity|].
  change ([109] ++ rest) with (109 :: rest). rewrite (screen_numbers text num T) by discriminate. reflexivity.
Qed.
Lemma code_text : forall a l rest st, screen (attribute_text a ++ rest) (Numbers l 0) st = screen rest (Numbers l (code a)) st.
Proof. intros a l rest st. destruct a; reflexivity. Qed.
Lemma reset_code_text : forall a l rest st, screen (reset_text a ++ rest) (Numbers l 0) st = screen rest (Numbers l (reset_code a)) st.
Proof. intros a l rest st. destruct a; reflexivity. Qed.

Lemma reset_default : forall attrs, fold_left obey (map reset_code attrs) default_style = default_style.
Proof. intros attrs. induction attrs as [|a attrs IH]; [reflexivity|]. cbn [map fold_left]. destruct a; exact IH. Qed.
Lemma reset_styles : forall attrs st, (exists a, In a attrs /\ a <> Bold) \/ (attrs <> [] /\ colour st = None) -> fold_left obey (map reset_code attrs) st = default_style.
Proof.
  intros attrs. induction attrs as [|a attrs IH]; intros st H; cbn [map fold_left]; [destruct H as [(a & [] & _)|(N & _)]; contradiction|].
  destruct a; try apply reset_default. change (obey st (reset_code Bold)) with (mkStyle (colour st) false).
  destruct H as [(a & [<-|I] & D)|(_ & C)].
  - contradiction.
  - apply IH. left. exists a. auto.
  - rewrite C. apply reset_default.
Qed.
Lemma set_bold : forall attrs st, (forall a, In a attrs -> a = Bold) -> colour (fold_left obey (map code attrs) st) = colour st.
Proof.
  intros attrs. induction attrs as [|a attrs IH]; intros st H; [reflexivity|]. cbn [map fold_left]. rewrite IH by (intros b I; apply H; right; exact I).
  rewrite (H a (or_introl eq_refl)). reflexivity.
Qed.
Lemma bold_dec : forall attrs : list attribute, (exists a, In a attrs /\ a <> Bold) \/ (forall a, In a attrs -> a = Bold).
Proof.
  intros attrs. induction attrs as [|a attrs IH]; [right; intros a []|]. destruct IH as [(b & I & D)|IH]; [left; exists b; split; [right; exact I|exact D]|].
  destruct a; try (left; eexists; split; [left; reflexivity|discriminate]). right. intros b [<-|I]; auto.
Qed.
Lemma reset_all : forall attrs, attrs <> [] -> fold_left obey (map reset_code attrs) (fold_left obey (map code attrs) default_style) = default_style.
Proof.
  intros attrs Ne. apply reset_styles. destruct (bold_dec attrs) as [H|H]; [left; exact H|]. right. split; [exact Ne|]. apply (set_bold attrs default_style H).
Qed.

(** What a piece looks like. *)
Definition piece_style (attrs : list attribute) : style := fold_left obey (map code attrs) default_style.
Definition piece_seen (p : piece) : list (style * N) :=
  match rev (snd p) with
  | 10 :: line => in_style (piece_style (fst p)) (rev line) ++ in_style default_style [10]
  | _ => in_style (piece_style (fst p)) (snd p)
  end.
Lemma set_style : forall attrs, match attrs with [] => default_style | _ => fold_left obey (map code attrs) default_style end = piece_style attrs.
Proof. intros [|a attrs]; reflexivity. Qed.
Lemma write_label : forall attrs text rest, no_escape text -> screen ((escape_with (join_semicolon (map attribute_text attrs)) ++ text ++ escape_with (str "0")) ++ rest) Text default_style
  = (in_style (piece_style attrs) text ++ fst (screen rest Text default_style), snd (screen rest Text default_style)).
Proof.
  intros attrs text rest H. rewrite <- !app_assoc. rewrite (screen_escape attribute_text code code_text), set_style. rewrite screen_text by exact H. reflexivity.
Qed.
Lemma write_line : forall attrs line rest, no_escape line ->
  screen ((escape_with (join_semicolon (map attribute_text attrs)) ++ line ++ escape_with (join_semicolon (map reset_text attrs)) ++ [10]) ++ rest) Text default_style
  = ((in_style (piece_style attrs) line ++ in_style default_style [10]) ++ fst (screen rest Text default_style), snd (screen rest Text default_style)).
Proof.
  intros attrs line rest H. rewrite <- !app_assoc. rewrite (screen_escape attribute_text code code_text), set_style. rewrite screen_text by exact H.
  rewrite (screen_escape reset_text reset_code reset_code_text).
  replace (match attrs with [] => default_style | _ => fold_left obey (map reset_code attrs) (piece_style attrs) end) with default_style
    by (destruct attrs as [|a attrs]; [reflexivity|symmetry; apply reset_all; discriminate]).
  rewrite (screen_text [10]) by (intros [E|[]]; discriminate E). cbn [fst snd]. reflexivity.
Qed.
Lemma no_escape_rev : forall text c line, no_escape text -> rev text = c :: line -> no_escape (rev line).
Proof. intros text c line H E I. apply H. apply in_rev. rewrite E. right. apply in_rev. exact I. Qed.
Lemma write_one : forall p rest, no_escape (snd p) -> screen (write_piece false p ++ rest) Text default_style = (piece_seen p ++ fst (screen rest Text default_style), snd (screen rest Text default_style)).
Proof.
  intros [attrs text] rest H. cbn [snd] in H. unfold write_piece, piece_seen. cbn [fst snd]. pose proof (write_label attrs text rest H) as L. destruct (rev text) as [|c line] eqn:E; [exact L|].
  destruct (N.eqb_spec c 10) as [->|D]; [apply write_line; eapply no_escape_rev; eassumption|].
  destruct c as [|q]; [exact L|]. do 4 (destruct q as [q|q|]; try exact L). exfalso. lia.
Qed.
Lemma write_all : forall l, Forall (fun p => no_escape (snd p)) l -> screen (write_pieces false l) Text default_style = (flat_map piece_seen l, default_style).
Proof.
  intros l H. induction H as [|p l Hp Hl IH]; [reflexivity|]. unfold write_pieces in *. cbn [flat_map]. rewrite write_one by exact Hp. rewrite IH. reflexivity.
Qed.
Lemma seen_text : forall p, map snd (piece_seen p) = snd p.
Proof.
  intros [attrs text]. unfold piece_seen. cbn [fst snd]. assert (G : forall st t, map snd (in_style st t) = t) by (intros st t; unfold in_style; rewrite map_map; apply map_id).
  destruct (rev text) as [|c line] eqn:E; [apply G|]. destruct (N.eqb_spec c 10) as [->|D].
  - rewrite map_app, !G. rewrite <- (rev_involutive text), E. reflexivity.
  - destruct c as [|q]; [apply G|]. do 4 (destruct q as [q|q|]; try apply G). exfalso. lia.
Qed.
Lemma c109_pieces : forall l, Forall (fun p => no_escape (snd p)) l ->
  exists seen, screen (write_pieces false l) Text default_style = (seen, default_style) /\ map snd seen = plain l.
Proof.
  intros l H. exists (flat_map piece_seen l). split; [apply write_all; exact H|]. unfold plain. clear H. induction l as [|p l IH]; [reflexivity|].
  cbn [flat_map map concat]. rewrite map_app, seen_text, IH. reflexivity.
Qed.
Lemma c109_plain : forall l, write_pieces true l = plain l.
Proof. intros l. unfold write_pieces, plain. induction l as [|[a t] l IH]; [reflexivity|]. cbn [flat_map map concat]. rewrite IH. reflexivity. Qed.

Lemma seen_value : forall attrs value, piece_seen (attrs, value ++ [10]) = in_style (piece_style attrs) value ++ in_style default_style [10].
Proof. intros attrs value. unfold piece_seen. cbn [fst snd]. rewrite rev_app_distr. cbn [rev app]. rewrite rev_involutive. reflexivity. Qed.
Lemma seen_label : forall attrs t, piece_seen (attrs, t ++ [58; 32]) = in_style (piece_style attrs) (t ++ [58; 32]).
Proof. intros attrs t. unfold piece_seen. cbn [fst snd]. rewrite rev_app_distr. reflexivity. Qed.
Lemma seen_heading : forall attrs name, piece_seen (attrs, heading name) = in_style (piece_style attrs) (heading name).
Proof. intros attrs name. unfold heading. rewrite app_assoc. apply seen_label. Qed.
Lemma seen_row : forall attrs name value, flat_map piece_seen (row_pieces (mkRow name attrs value)) = seen_line (piece_style attrs) name value.
Proof.
  intros attrs name value. unfold row_pieces. cbn [row_name row_highlight row_value flat_map]. rewrite seen_heading, seen_value, app_nil_r. reflexivity.
Qed.
Lemma seen_component : forall name value, flat_map piece_seen (row_pieces (component name value)) = component_line (str name, value).
Proof. intros name value. unfold component. rewrite seen_row. unfold component_line. cbn [fst snd]. destruct value; reflexivity. Qed.
Lemma row_no_escape : forall attrs name value, no_escape name -> no_escape value -> Forall (fun p => no_escape (snd p)) (row_pieces (mkRow name attrs value)).
Proof.
  intros attrs name value H1 H2. unfold row_pieces. cbn [row_name row_highlight row_value]. constructor; [|constructor; [|constructor]]; cbn [snd]; unfold no_escape, heading; rewrite ?in_app_iff.
  - intros [I|[I|I]]; [apply repeat_spec in I; discriminate I|exact (H1 I)|]. cbn [In] in I. intuition discriminate.
  - intros [I|I]; [exact (H2 I)|]. cbn [In] in I. intuition discriminate.
Qed.
Lemma no_escape_b : forall s, forallb (fun c => negb (c =? 27)) s = true -> no_escape s.
Proof. intros s H I. rewrite forallb_forall in H. apply H in I. discriminate I. Qed.
Lemma component_no_escape : forall name value, forallb (fun c => negb (c =? 27)) (str name) = true -> no_escape value -> Forall (fun p => no_escape (snd p)) (row_pieces (component name value)).
Proof. intros name value H1 H2. unfold component. apply row_no_escape; [apply no_escape_b; exact H1|exact H2]. Qed.
Lemma c109_table : forall url r n, no_escapes url r -> exists name, host_type_name n name
  /\ screen (write_pieces false (print_res url r n)) Text default_style
    = (component_lines url r ++ seen_line (if (n =? 0)%Z then mkStyle (Some 90) false else mkStyle (Some 94) true) (str "host type") name ++ in_style default_style [10], default_style).
Proof.
  intros url r n H. destruct (c46 url r n) as (name & colours & Hn & C0 & C1 & E). exists name. split; [exact Hn|]. rewrite E. clear E.
  assert (Nn : no_escape name). { destruct Hn as [(_ & ->)|[(_ & ->)|[(_ & ->)|(_ & ->)]]]; apply no_escape_b; reflexivity. }
  assert (Cs : piece_style colours = if (n =? 0)%Z then mkStyle (Some 90) false else mkStyle (Some 94) true).
  { destruct (Z.eqb_spec n 0) as [->|D]; [rewrite C0 by reflexivity; reflexivity|rewrite (C1 D); reflexivity]. }
  unfold no_escapes in H. repeat (apply Forall_cons_iff in H as [? H]). rewrite write_all.
  - f_equal. rewrite flat_map_app, flat_map_app. unfold components. cbn [app]. rewrite !flat_map_app. cbn [flat_map]. unfold component_lines. cbn [flat_map].
    rewrite !flat_map_app, !seen_component, seen_row, Cs. cbn [flat_map]. rewrite ?app_nil_r, <- ?app_assoc. reflexivity.
  - rewrite flat_map_app. apply Forall_app. split; [apply Forall_app; split|repeat constructor; apply no_escape_b; reflexivity].
    + unfold components. cbn [flat_map]. repeat (apply Forall_app; split; [apply component_no_escape; [reflexivity|assumption]|]). constructor.
    + cbn [flat_map]. rewrite app_nil_r. apply row_no_escape; [apply no_escape_b; reflexivity|exact Nn].
Qed.

(** The components consist of characters of the URL, or of the host in ASCII form. *)
Definition ensures {A} (P : A -> Prop) (o : outcome A) : Prop := forall x, o = Ret x -> P x.
Lemma ensures_bind : forall A B (Q : A -> Prop) (P : B -> Prop) (o : outcome A) (f : A -> outcome B), ensures Q o -> (forall x, Q x -> ensures P (f x)) -> ensures P (bind o f).
Proof. intros A B Q P o f H1 H2 y E. destruct o as [x| |]; cbn [bind] in E; try discriminate E. exact (H2 x (H1 x eq_refl) y E). Qed.
Lemma ensures_ret : forall A (P : A -> Prop) x, P x -> ensures P (Ret x).
Proof. intros A P x H y E. injection E as <-. exact H. Qed.
Lemma ensures_any : forall A (o : outcome A), ensures (fun _ => True) o.
Proof. intros A o x _. exact I. Qed.

Section From.
Variable A : N -> Prop.
Definition all (s : bytes) : Prop := forall c, In c s -> A c.
Record all_fields (r : result) : Prop := {
  af_scheme : all (r_scheme r); af_user : all (r_user_info r); af_sub : all (r_sub_domain r); af_domain : all (r_domain r);
  af_suffix : all (r_suffix r); af_registered : all (r_registered_domain r); af_port : all (r_port r); af_path : all (r_path r) }.
Definition fields (x : result * option err) : Prop := all_fields (fst x).
Lemma all_slice : forall s a b, all s -> ensures all (slice s a b).
Proof.
  intros s a b H t E. unfold slice in E. destruct (_ && _); [|discriminate E]. injection E as <-. intros c I1. apply H.
  assert (G : forall n (l : bytes) x, In x (firstn n l) -> In x l). { intros n l x J. rewrite <- (firstn_skipn n l). apply in_or_app. auto. }
  assert (K : forall n (l : bytes) x, In x (skipn n l) -> In x l). { intros n l x J. rewrite <- (firstn_skipn n l). apply in_or_app. auto. }
  eapply K, G. exact I1.
Qed.
Lemma all_trim : forall s chars mode, all s -> ensures all (Str.fast_trim s chars mode).
Proof.
  intros s chars mode H. unfold Str.fast_trim. destruct (if negb (Str.trim_mode_eqb mode Str.TrimRight) then _ else _) as [st al].
  destruct al; [apply ensures_ret; intros c []|]. destruct (if negb (Str.trim_mode_eqb mode Str.TrimLeft) then _ else _) as [en ar].
  destruct ar; [apply ensures_ret; intros c []|]. apply all_slice. exact H.
Qed.
Ltac put := match goal with H : all_fields _ |- _ => destruct H; constructor; assumption end.
Lemma all_components : forall u s ignore k, all_fields u -> all s -> ensures fields (host_components u s ignore k).
Proof.
  intros u s ignore k Hu Hs. unfold host_components. destruct (if (w_sep_idx k =? -1)%Z then _ else _) as [sep st].
  eapply ensures_bind; [apply ensures_any|]. intros checked _. destruct (Str.has_invalid_chars checked); [apply ensures_ret; exact Hu|].
  apply (ensures_bind _ _ (fun ud => all_fields (fst ud))).
  - destruct (w_has_suffix k).
    + destruct (sep <? len s)%Z.
      * eapply ensures_bind; [apply ensures_any|]. intros x _. eapply ensures_bind; [apply all_slice; exact Hs|]. intros sfx Hx. eapply ensures_bind; [apply ensures_any|]. intros head _. cbv zeta.
        destruct (negb _).
        -- eapply ensures_bind; [apply ensures_any|]. intros y _. eapply ensures_bind; [apply all_slice; exact Hs|]. intros dom Hd. eapply ensures_bind; [apply all_slice; exact Hs|]. intros reg Hr.
           apply ensures_ret. cbn [fst]. put.
        -- eapply ensures_bind; [apply all_slice; exact Hs|]. intros dom Hd. eapply ensures_bind; [apply all_slice; exact Hs|]. intros reg Hr. apply ensures_ret. cbn [fst]. put.
      * eapply ensures_bind; [apply all_slice; exact Hs|]. intros sfx Hx. apply ensures_ret. cbn [fst]. put.
    + eapply ensures_bind; [apply ensures_any|]. intros head _. cbv zeta. eapply ensures_bind; [apply ensures_any|]. intros start _. eapply ensures_bind; [apply all_slice; exact Hs|].
      intros dom Hd. apply ensures_ret. cbn [fst]. put.
  - intros [u' d] Hu'. cbn [fst] in Hu'. apply (ensures_bind _ _ all_fields).
    + destruct (_ && _); [|apply ensures_ret; exact Hu']. eapply ensures_bind; [apply all_slice; exact Hs|]. intros sub Hsub. apply ensures_ret. put.
    + intros u2 H2. destruct (len (r_domain u2) =? 0)%Z; apply ensures_ret; unfold fields; cbn [fst]; [exact H2|put].
Qed.
Lemma all_host : forall t u s ignore, all_fields u -> all s -> ensures fields (extract_host t u s ignore).
Proof.
  intros t u s ignore Hu Hs. unfold extract_host. eapply ensures_bind; [apply ensures_any|]. intros [e|k] _; [apply ensures_ret; exact Hu|].
  eapply ensures_bind; [apply ensures_any|]. intros v4 _. destruct v4; [|apply all_components; assumption]. eapply ensures_bind; [apply all_slice; exact Hs|]. intros dom Hd.
  apply ensures_ret. unfold fields. cbn [fst]. put.
Qed.
Lemma all_port : forall u s, all_fields u -> all s -> ensures fields (port_path u s).
Proof.
  intros u s Hu Hs. unfold port_path. destruct (negb (len s =? 0)%Z); [|apply ensures_ret; exact Hu]. cbv zeta. eapply ensures_bind; [apply ensures_any|]. intros c _.
  apply (ensures_bind _ _ fields).
  - destruct (c =? 58); [|apply ensures_ret; exact Hu]. apply (ensures_bind _ _ all); [destruct (_ =? -1)%Z; apply all_slice; exact Hs|]. intros p Hp.
    destruct (atoi p) as [v|]; [|apply ensures_ret; exact Hu]. destruct (_ && _)%Z; apply ensures_ret; unfold fields; cbn [fst]; [put|exact Hu].
  - intros [u' [e|]] H'; [apply ensures_ret; exact H'|]. unfold fields in H'. cbn [fst] in H'. destruct (_ && _); [|apply ensures_ret; exact H']. eapply ensures_bind; [apply all_slice; exact Hs|]. intros p Hp.
    apply ensures_ret. unfold fields. cbn [fst]. put.
Qed.
Lemma all_extract : forall ext t p, all (p_url p) -> (forall h a, idna_to_puny ext h = Some a -> p_to_punycode p = true -> all a) -> ensures fields (extract ext t p).
Proof.
  intros ext t p Hu Hp. assert (H0 : all_fields empty_result) by (constructor; intros c []). unfold extract. cbv zeta. eapply ensures_bind; [apply all_trim; exact Hu|]. intros n0 H1.
  apply (ensures_bind _ _ (fun x => all_fields (fst x) /\ all (snd x))).
  { destruct (negb _); [|apply ensures_ret; auto]. eapply ensures_bind; [apply all_slice; exact H1|]. intros a Ha. eapply ensures_bind; [apply all_slice; exact H1|]. intros b Hb.
    apply ensures_ret. cbn [fst snd]. split; [put|exact Hb]. }
  intros [u1 n1] [Hu1 Hn1]. cbn [fst snd] in *. eapply ensures_bind; [apply ensures_any|]. intros at_idx _.
  apply (ensures_bind _ _ (fun x => all_fields (fst x) /\ all (snd x))).
  { destruct (negb _); [|apply ensures_ret; auto]. eapply ensures_bind; [apply all_slice; exact Hn1|]. intros a Ha. eapply ensures_bind; [apply all_slice; exact Hn1|]. intros b Hb.
    apply ensures_ret. cbn [fst snd]. split; [put|exact Hb]. }
  intros [u2 n2] [Hu2 Hn2]. cbn [fst snd] in *. destruct (scan_host n2 0 (len n2) (-1) (-1)) as [e|[[opening closing] host_end]]; [apply ensures_ret; exact Hu2|].
  set (host_end' := if (closing =? len n2 - 1)%Z then (-1)%Z else if negb (closing =? -1)%Z then (closing + 1)%Z else host_end). clearbody host_end'. apply (ensures_bind _ _ fields).
  { destruct (closing >? opening)%Z; [|apply ensures_ret; exact Hu2]. eapply ensures_bind; [apply all_slice; exact Hn2|]. intros inner Hi. eapply ensures_bind; [apply ensures_any|]. intros v6 _.
    destruct (negb v6); [apply ensures_ret; exact Hu2|]. eapply ensures_bind; [apply ensures_any|]. intros ok _. destruct (negb ok); apply ensures_ret; unfold fields; cbn [fst]; [exact Hu2|put]. }
  intros [u3 [e|]] H3; [apply ensures_ret; exact H3|]. unfold fields in H3. cbn [fst] in H3.
  apply (ensures_bind _ _ (fun x => all (fst x) /\ all (snd x))).
  { destruct (negb _); [|apply ensures_ret; split; [intros c []|exact Hn2]]. eapply ensures_bind; [apply all_slice; exact Hn2|]. intros a Ha. eapply ensures_bind; [apply all_slice; exact Hn2|]. intros b Hb.
    apply ensures_ret. auto. }
  intros [a n3] [Ha Hn3]. cbn [fst snd] in *. apply (ensures_bind _ _ fields); [apply all_port; assumption|]. intros [u4 [e|]] H4; [apply ensures_ret; exact H4|].
  unfold fields in H4. cbn [fst] in H4.
  assert (F : ensures fields (match convert_host ext (p_to_punycode p) n3 with inl e => Ret (u4, Some e) | inr host => extract_host t u4 host (p_ignore_sub_domains p) end)).
  { destruct (convert_host ext (p_to_punycode p) n3) as [e|host] eqn:E; [apply ensures_ret; exact H4|]. apply all_host; [exact H4|]. unfold convert_host in E.
    destruct (query_unescape n3) as [x|un]; [discriminate E|]. destruct (p_to_punycode p) eqn:Ep.
    - injection E as <-. unfold Str.format_as_punycode. destruct (idna_to_puny ext un) as [y|] eqn:Ey; [exact (Hp _ _ Ey eq_refl)|intros c []].
    - destruct (idna_to_unicode_err ext un); [discriminate E|]. injection E as <-. exact Hn3. }
  destruct (r_host_type u4); try exact F. apply ensures_ret. exact H4.
Qed.
End From.
Lemma c109_extract : forall ext t p r e, no_escape (p_url p) -> (forall h a, idna_to_puny ext h = Some a -> no_escape a) -> extract ext t p = Ret (r, e) -> no_escapes (p_url p) r.
Proof.
  intros ext t p r e H C E.
  assert (F : all_fields (fun c => c <> 27) r).
  { apply (all_extract (fun c => c <> 27) ext t p) in E; [exact E| |].
    - intros c I1 ->. exact (H I1).
    - intros h a Ea _ c I1 ->. exact (C h a Ea I1). }
  destruct F. assert (G : forall s, all (fun c => c <> 27) s -> no_escape s) by (intros s K I1; exact (K 27 I1 eq_refl)).
  unfold no_escapes. repeat (constructor; [first [exact H | apply G; assumption]|]). constructor.
Qed.
