(** Properties C133 and C134: the declustering windows (declustering.py:66-151) against the
    published ones. *)
From Coq Require Import ZArith List Bool Arith Lia Reals Lra.
From Verif Require Import Base Ops BaseFacts RFacts CatUtil Decluster DeclusterSpec DeclusterProofs
  DeclusterR CalendarSpec GeoProofs WindowSpec WindowProofs.
Import ListNotations.
Local Open Scope R_scope.

(** C133: between two rows of Gardner and Knopoff's table the windows lie between theirs. *)
Theorem C133_gk_table : forall m, 5/2 <= m <= 8 ->
  exists f r, @window_calc ROps TDW_GARDNERKNOPOFF = Ok f /\ In r (steps gk_table) /\
    between_rows m (fst (f m)) (days_of (snd (f m))) r.
Proof. exact C133_proof. Qed.
Print Assumptions C133_gk_table.

(** Magnitude 5.2: between the rows of 5 and 5.5. *)
Example C133_case : 5/2 <= 52/10 <= 8 /\ In ((5, 40, 155), (11/2, 47, 290)) (steps gk_table).
Proof. split. lra. unfold gk_table. cbn [steps In]. tauto. Qed.

(** C134 is false: at magnitude 9 Uhrhammer's time window is more than forty times the one
    used. *)
Theorem C134_uhrhammer_law_refuted : exists f m,
  @window_calc ROps TDW_UHRHAMMER = Ok f /\ 0 <= m <= 9 /\
  40 * days_of (snd (f m)) < uhrhammer_days m.
Proof. exact C134_refuted_proof. Qed.
Print Assumptions C134_uhrhammer_law_refuted.

(** What is used instead: about three weeks for every magnitude, too long up to magnitude 4
    and too short from magnitude 6. *)
Theorem C134_uhrhammer_three_weeks_partial : forall f m,
  @window_calc ROps TDW_UHRHAMMER = Ok f -> 0 <= m <= 9 ->
  19 <= days_of (snd (f m)) < 24 /\
  (m <= 4 -> uhrhammer_days m < days_of (snd (f m))) /\
  (6 <= m -> days_of (snd (f m)) < uhrhammer_days m).
Proof. exact C134_partial_proof. Qed.
Print Assumptions C134_uhrhammer_three_weeks_partial.

(** So Gardner-Knopoff declustering with these windows keeps every event of a catalogue
    without two events within 24 days, whatever the magnitudes and distances. *)
Theorem C134_uhrhammer_keeps_partial : forall argsort, @is_argsort ROps argsort ->
  forall (cat : list (event ROps)) fs vcl vmain flag,
  0 <= fs <= 1 -> (forall e, In e cat -> 0 <= ev_mw e <= 9) ->
  (forall k k' e e' dt, k <> k' -> nth_error cat k = Some e -> nth_error cat k' = Some e' ->
     delay e e' = Some dt -> 24 < days_of (Rabs dt)) ->
  @gardner_knopoff_decluster ROps argsort cat TDW_UHRHAMMER fs = Ok (vcl, vmain, flag) ->
  vmain = cat /\ flag = repeat 0%Z (length cat).
Proof. exact C134_gap_proof. Qed.
Print Assumptions C134_uhrhammer_keeps_partial.

(** A magnitude 9 and, thirty days later at the same place, a magnitude 5. *)
Example C134_case : let cat := [mkEvent (AR := ROps) 2000 1 1 0 0 9 0; mkEvent (AR := ROps) 2000 1 31 0 0 5 0] in
  (forall e, In e cat -> 0 <= ev_mw e <= 9) /\
  (forall k k' e e' dt, k <> k' -> nth_error cat k = Some e -> nth_error cat k' = Some e' ->
     delay e e' = Some dt -> 24 < days_of (Rabs dt)) /\
  forall argsort, exists r, @gardner_knopoff_decluster ROps argsort cat TDW_UHRHAMMER 0 = Ok r.
Proof.
  cbv zeta. split; [|split].
  - intros e [<-|[<-|[]]]; cbn [ev_mw]; lra.
  - assert (D : forall d d' dt, (1 <= d <= 31)%Z -> (1 <= d' <= 31)%Z ->
      delay (mkEvent (AR := ROps) 2000 1 (IZR d) 0 0 0 0) (mkEvent (AR := ROps) 2000 1 (IZR d') 0 0 0 0) = Some dt ->
      days_of (Rabs dt) = Rabs (IZR (d' - d))).
    { intros d d' dt B B'. unfold delay, event_time. cbn [ev_year ev_month ev_day].
      rewrite !(decimal_year_value _ 1) by lia. intros H. injection H as <-. unfold days_of.
      rops.
      match goal with |- 365 * Rabs ?x = _ => replace (365 * Rabs x) with (Rabs (365 * x)) by (rewrite Rabs_mult, (Rabs_pos_eq 365); lra) end.
      f_equal. rewrite minus_IZR. field. }
    intros k k' e e' dt N E E' H.
    destruct k as [|[|k]]; destruct k' as [|[|k']]; try lia; cbn in E, E'; try (destruct k; discriminate); try (destruct k'; discriminate).
    + injection E as <-. injection E' as <-. change (24 < days_of (Rabs dt)). rewrite (D 1%Z 31%Z dt) by (try lia; exact H).
      rewrite Rabs_pos_eq; simpl; lra.
    + injection E as <-. injection E' as <-. change (24 < days_of (Rabs dt)). rewrite (D 31%Z 1%Z dt) by (try lia; exact H).
      rewrite Rabs_left; simpl; lra.
  - intros argsort. eapply gk_ok; [discriminate| |reflexivity].
    unfold decimal_year. cbn [mapM ev_year ev_month ev_day]. rewrite !(decimal_year_value _ 1) by lia. reflexivity.
Qed.
