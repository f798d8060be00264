(** The completeness table file: what is stored and what is read back. *)
From Coq Require Import ZArith Bool Ascii String List Lia Reals Lra.
From Verif Require Import Base Ops BaseFacts RFacts CatUtil PyStr PyStrProofs Csv CsvProofs EqCatalog EqCatSpec SourceModel Nrml World
  CatalogFilter Recurrence MaxMag Jobs Workflow Main FlowSpec FlowPipe.
Import ListNotations.

(** ** Numbers with five decimals *)

Lemma print_pos : forall z, (0 <= z)%Z -> Forall digit (print_int z) /\ print_int z <> [] /\ digits_value (print_int z) = Some z.
Proof.
  intros z P. assert (V := DecimalZ.of_to z). unfold print_int. destruct (Z.to_int z) as [u|u] eqn:E.
  - split; [apply Forall_forall; intros c H; exact (print_uint_digits u c H)|]. split.
    + apply print_uint_ne. eapply to_int_pos_ne; eauto.
    + rewrite print_uint_value. now f_equal.
  - exfalso. destruct z; cbn in E; try discriminate. lia.
Qed.

Definition ten : list Z := [0; 1; 2; 3; 4; 5; 6; 7; 8; 9]%Z.
Lemma in_ten : forall z, (0 <= z < 10)%Z -> In z ten.
Proof. intros z H. unfold ten. cbn. lia. Qed.
Definition short_check : bool :=
  forallb (fun a => forallb (fun b => forallb (fun c => forallb (fun d => forallb (fun e =>
    Nat.leb (length (print_int (a * 10000 + b * 1000 + c * 100 + d * 10 + e))) 5) ten) ten) ten) ten) ten.
Lemma short_check_ok : short_check = true.
Proof. vm_compute. reflexivity. Qed.
Lemma short_print : forall r, (0 <= r < 100000)%Z -> (length (print_int r) <= 5)%nat.
Proof.
  intros r H.
  pose proof (Z.div_mod r 10 ltac:(lia)) as D1. pose proof (Z.mod_pos_bound r 10 ltac:(lia)) as B1. set (r1 := (r / 10)%Z) in *. set (e := (r mod 10)%Z) in *.
  pose proof (Z.div_mod r1 10 ltac:(lia)) as D2. pose proof (Z.mod_pos_bound r1 10 ltac:(lia)) as B2. set (r2 := (r1 / 10)%Z) in *. set (d := (r1 mod 10)%Z) in *.
  pose proof (Z.div_mod r2 10 ltac:(lia)) as D3. pose proof (Z.mod_pos_bound r2 10 ltac:(lia)) as B3. set (r3 := (r2 / 10)%Z) in *. set (c := (r2 mod 10)%Z) in *.
  pose proof (Z.div_mod r3 10 ltac:(lia)) as D4. pose proof (Z.mod_pos_bound r3 10 ltac:(lia)) as B4. set (a := (r3 / 10)%Z) in *. set (b := (r3 mod 10)%Z) in *.
  clearbody r1 e r2 d r3 c a b.
  assert (A : (0 <= a < 10)%Z) by lia.
  replace r with (a * 10000 + b * 1000 + c * 100 + d * 10 + e)%Z by lia.
  pose proof short_check_ok as S1. unfold short_check in S1.
  rewrite forallb_forall in S1. specialize (S1 a (in_ten a A)).
  rewrite forallb_forall in S1. specialize (S1 b (in_ten b B4)).
  rewrite forallb_forall in S1. specialize (S1 c (in_ten c B3)).
  rewrite forallb_forall in S1. specialize (S1 d (in_ten d B2)).
  rewrite forallb_forall in S1. specialize (S1 e (in_ten e B1)).
  now apply Nat.leb_le.
Qed.

Lemma pad_digits : forall s, Forall digit s -> Forall digit (pad_left "0" 5 s) /\ decimal_value (pad_left "0" 5 s) = decimal_value s.
Proof.
  intros s F. unfold pad_left. set (k := 5 - length s). clearbody k. split.
  - apply Forall_app. split; auto. apply Forall_forall. intros c I. apply repeat_spec in I. subst. unfold digit. cbn. lia.
  - unfold decimal_value. rewrite fold_left_app. f_equal. induction k; auto.
Qed.

(** The text without its padding. *)
Definition number_text (n : Z) (s : text) : Prop :=
  trimmed s /\ s <> [] /\ free_of chr_comma s /\ free_of chr_lf s /\ parse_fixed5 s = Some n.

Lemma digit_free : forall c s, Forall digit s -> ~ digit c -> free_of c s.
Proof. intros c s F N I. rewrite Forall_forall in F. exact (N (F c I)). Qed.

Lemma fixed_number : forall n, exists k s, print_fixed5 n = repeat chr_space k ++ s /\ number_text n s.
Proof.
  intros n. unfold print_fixed5. set (a := Z.abs n). assert (A : (0 <= a)%Z) by apply Z.abs_nonneg.
  assert (Q : (0 <= a / 100000)%Z) by (apply Z.div_pos; lia). pose proof (Z.mod_pos_bound a 100000 ltac:(lia)) as M.
  destruct (print_pos _ Q) as (DQ & NQ & VQ). destruct (print_pos (a mod 100000) ltac:(lia)) as (DR & NR & VR).
  pose proof (short_print _ M) as LR. set (q := print_int (a / 100000)) in *. set (r := print_int (a mod 100000)) in *.
  destruct (pad_digits r DR) as (DP & VP). set (p := pad_left "0" 5 r) in *.
  assert (LP : length p = 5%nat) by (unfold p, pad_left; rewrite app_length, repeat_length; lia).
  assert (VP' : digits_value p = Some (a mod 100000)%Z).
  { rewrite digits_value_all by auto. rewrite VP. rewrite digits_value_all in VR by auto. exact VR. }
  set (body := q ++ ["."%char] ++ p).
  set (s := if (n <? 0)%Z then "-"%char :: body else body).
  exists (10 - length s), s. split; [reflexivity|].
  assert (NP : p <> []) by (intros E; rewrite E in LP; discriminate).
  assert (ND : ~ digit "-"%char /\ ~ digit "."%char /\ ~ digit chr_comma /\ ~ digit chr_lf) by (unfold digit; vm_compute; lia).
  destruct ND as (ND1 & ND2 & ND3 & ND4).
  assert (FB : forall c, ~ digit c -> c <> "."%char -> free_of c body).
  { intros c N1 N2 I. unfold body in I. apply in_app_iff in I. destruct I as [I|[I|I]]; [| congruence |].
    - exact (digit_free c q DQ N1 I).
    - exact (digit_free c p DP N1 I). }
  assert (TB : trimmed body /\ is_space "-" = false).
  { split; [|reflexivity]. split.
    - intros c r0 E. unfold body in E. destruct q as [|x q']; [contradiction|]. injection E as <- _. apply digit_not_space. now inversion DQ.
    - intros c r0 E. unfold body in E. destruct (exists_last NP) as (p' & x & EP). rewrite EP in E, DP. rewrite !app_assoc in E.
      apply app_inj_tail in E. destruct E as (_ & <-). apply digit_not_space. apply Forall_app in DP. destruct DP as (_ & DP). now inversion DP. }
  destruct TB as (TB & SM).
  assert (TS : trimmed s).
  { unfold s. destruct (n <? 0)%Z; auto. destruct TB as (T1 & T2). split.
    - intros c r0 E. now injection E as <- _.
    - intros c r0 E. destruct r0 as [|x r0]; [injection E as <- _; reflexivity|]. injection E as _ E. eapply T2. exact E. }
  assert (SB : split_on "." body = [q; p]).
  { unfold body. cbn [app]. rewrite split_on_app by (apply digit_free; auto). rewrite split_on_free by (apply digit_free; auto). reflexivity. }
  split; auto. split; [|split; [|split]].
  - unfold s, body. destruct (n <? 0)%Z; [discriminate|]. destruct q; discriminate.
  - unfold s. destruct (n <? 0)%Z; [intros [E|I]; [discriminate|]|intros I]; revert I; apply FB; auto; discriminate.
  - unfold s. destruct (n <? 0)%Z; [intros [E|I]; [discriminate|]|intros I]; revert I; apply FB; auto; discriminate.
  - unfold parse_fixed5. rewrite strip_self by auto. unfold s.
    destruct (n <? 0)%Z eqn:SG.
    + rewrite Ascii.eqb_refl. rewrite SB. destruct q as [|x q'] eqn:EQ; [contradiction|]. rewrite <- EQ in *. clear EQ.
      replace (length p =? 5)%nat with true by (rewrite LP; reflexivity). rewrite VQ, VP'. f_equal.
      apply Z.ltb_lt in SG. unfold a. pose proof (Z.div_mod (Z.abs n) 100000 ltac:(lia)). lia.
    + assert (HD : exists x b', body = x :: b' /\ Ascii.eqb x "-" = false).
      { destruct q as [|x q'] eqn:EQ; [contradiction|]. exists x, (q' ++ ["."%char] ++ p). split; [reflexivity|].
        apply Ascii.eqb_neq. intros ->. now inversion DQ. }
      clearbody body. destruct HD as (x & b' & EB & NM). rewrite EB, NM, <- EB, SB.
      destruct q as [|y q'] eqn:EQ; [contradiction|]. rewrite <- EQ in *. clear EQ.
      replace (length p =? 5)%nat with true by (rewrite LP; reflexivity). rewrite VQ, VP'. f_equal.
      apply Z.ltb_ge in SG. unfold a. pose proof (Z.div_mod (Z.abs n) 100000 ltac:(lia)). lia.
Qed.

Lemma blanks : forall k, blank_text (repeat chr_space k).
Proof. intros k. apply Forall_forall. intros c I. apply repeat_spec in I. now subst. Qed.

Lemma parse_padded : forall n k s, number_text n s -> parse_fixed5 (repeat chr_space k ++ s) = Some n.
Proof.
  intros n k s (T1 & _ & _ & _ & P). unfold parse_fixed5 in *.
  assert (E : strip (repeat chr_space k ++ s) = s).
  { pose proof (strip_pad (repeat chr_space k) s [] (blanks k) (Forall_nil _) T1) as X. now rewrite app_nil_r in X. }
  rewrite E. now rewrite (strip_self s T1) in P.
Qed.

(** ** The file *)
Section Table.
Context {AR : Ops}.
Variable W : world AR.

Lemma line_cells : forall row : T * T,
  exists l, file_lines (table_line row) = [l] /\ strip l <> [] /\
    map (table_cell W) (split_on chr_comma (strip l)) = [stored5 (fst row); stored5 (snd row)] /\
    forall rest, file_lines (table_line row ++ rest) = l :: file_lines rest.
Proof.
  intros (x, y). unfold table_line. cbn [fst snd].
  destruct (fixed_number (units5 x)) as (k1 & s1 & -> & N1). destruct (fixed_number (units5 y)) as (k2 & s2 & -> & N2).
  pose proof N1 as (T1 & E1 & C1 & L1 & P1). pose proof N2 as (T2 & E2 & C2 & L2 & P2).
  set (line := (repeat chr_space k1 ++ s1) ++ [chr_comma] ++ (repeat chr_space k2 ++ s2)).
  assert (LF : ~ In chr_lf line).
  { unfold line. intros I. repeat (apply in_app_iff in I; destruct I as [I|I]); auto.
    - apply repeat_spec in I. discriminate.
    - destruct I as [I|[]]. discriminate.
    - apply repeat_spec in I. discriminate. }
  assert (SPL : forall w cur rest, ~ In chr_lf w -> lines_from cur (w ++ chr_lf :: rest) = (rev cur ++ w ++ [chr_lf]) :: lines_from [] rest).
  { induction w as [|c w IH]; intros cur rest N; cbn [app lines_from].
    - rewrite Ascii.eqb_refl. cbn [rev]. reflexivity.
    - rewrite (proj2 (Ascii.eqb_neq c chr_lf)) by (intros ->; apply N; now left).
      rewrite IH by (intros I; apply N; now right). cbn [rev]. now rewrite <- app_assoc. }
  exists (line ++ [chr_lf]).
  assert (ST : strip (line ++ [chr_lf]) = s1 ++ [chr_comma] ++ repeat chr_space k2 ++ s2).
  { unfold line. rewrite <- !app_assoc.
    pose proof (strip_pad (repeat chr_space k1) (s1 ++ [chr_comma] ++ repeat chr_space k2 ++ s2) [chr_lf] (blanks k1)) as X.
    rewrite <- !app_assoc in X. apply X.
    - constructor; [reflexivity|constructor].
    - split.
      + intros c r E. destruct s1 as [|c1 s1']; [contradiction|]. injection E as <- _. destruct T1 as (T1 & _). eapply T1. reflexivity.
      + intros c r E. destruct (exists_last E2) as (s2' & c2 & R2). rewrite R2 in E, T2. rewrite !app_assoc in E.
        apply app_inj_tail in E. destruct E as (_ & <-). destruct T2 as (_ & T2). eapply T2. reflexivity. }
  assert (LL : (repeat chr_space k1 ++ s1) ++ [chr_comma] ++ (repeat chr_space k2 ++ s2) ++ [chr_lf] = line ++ [chr_lf]).
  { unfold line. now rewrite <- !app_assoc. }
  rewrite LL. split; [|split; [|split]].
  - unfold file_lines. rewrite SPL by auto. reflexivity.
  - rewrite ST. destruct s1; [contradiction|discriminate].
  - rewrite ST. cbn [app]. rewrite split_on_app by exact C1. rewrite split_on_free.
    2:{ intros I. apply in_app_iff in I. destruct I as [I|I]; [apply repeat_spec in I; discriminate|now apply C2]. }
    cbn [map]. unfold table_cell. rewrite P1. rewrite (parse_padded _ k2 s2 N2). reflexivity.
  - intros rest. unfold file_lines. rewrite <- app_assoc. cbn [app]. rewrite SPL by auto. cbn [rev app]. reflexivity.
Qed.

Lemma table_lines : forall tab, exists ls, file_lines (table_text tab) = ls /\
  Forall (fun l => strip l <> []) ls /\
  map (fun l => map (table_cell W) (split_on chr_comma (strip l))) ls = map (fun r => [stored5 (fst r); stored5 (snd r)]) tab.
Proof.
  induction tab as [|r tab (ls & L & F & M)].
  - exists []. auto.
  - destruct (line_cells r) as (l & _ & N & C & A). unfold table_text in *. cbn [map List.concat]. exists (l :: ls).
    split; [now rewrite A, L|]. split; [now constructor|]. cbn [map]. now rewrite C, M.
Qed.

Lemma table_read : forall tab, tab <> [] ->
  table_rows W (table_text tab) = Ok (map (fun r => [stored5 (fst r); stored5 (snd r)]) tab).
Proof.
  intros tab NE. destruct (table_lines tab) as (ls & L & F & M). unfold table_rows. rewrite L.
  match goal with |- context [filter ?g (map strip ls)] => assert (K : filter g (map strip ls) = map strip ls) end.
  { clear - F. induction F as [|l ls N F IH]; auto. cbn. destruct (strip l) eqn:E; [contradiction|]. now rewrite IH. }
  rewrite K, map_map, M. destruct tab as [|r tab]; [contradiction|]. cbn [map].
  replace (forallb _ _) with true; auto. symmetry. apply forallb_forall. intros x [<-|I]; auto.
  apply in_map_iff in I. destruct I as (r' & <- & _). reflexivity.
Qed.

Lemma pairs_concat : forall tab : list (T * T),
  pairs (List.concat (map (fun r => [stored5 (fst r); stored5 (snd r)]) tab)) = Ok (map (fun r => (stored5 (fst r), stored5 (snd r))) tab).
Proof. induction tab as [|r tab IH]; auto. cbn [map List.concat app pairs]. now rewrite IH. Qed.

(** Storing and retrieving, for every arithmetic. *)
Lemma store_retrieve : forall p tab (c c1 : context AR) p',
  cf_completeness_table_file (cx_config c) = Given p -> cx_table c = Some tab ->
  store_completeness_table W c = (c1, None) ->
  forall c2, cf_completeness_table_file (cx_config c2) = Given p' -> cx_files c2 p' = cx_files c1 p ->
  retrieve_completeness_table W c2 =
    match tab with [] => (c2, Some IOError)
    | _ => (set_table (Some (map (fun r => (stored5 (fst r), stored5 (snd r))) tab)) c2, None) end.
Proof.
  intros p tab c c1 p' CF TB ST c2 CF2 FF. unfold store_completeness_table in ST. rewrite CF, TB in ST. cbn [lookup_file bind have] in ST.
  destruct (w_can_write W p); [|discriminate]. cbn [bind finish] in ST. injection ST as <-.
  unfold retrieve_completeness_table. rewrite CF2. cbn [lookup_file bind]. unfold open_read. rewrite FF. cbn.
  unfold write_file. rewrite (proj2 (text_eqb_eq p p) eq_refl). cbn [bind].
  destruct tab as [|r tab]; [reflexivity|]. rewrite table_read by discriminate. cbn [bind]. rewrite pairs_concat. reflexivity.
Qed.

Lemma store_table_ok : forall p tab (c : context AR),
  cf_completeness_table_file (cx_config c) = Given p -> cx_table c = Some tab -> w_can_write W p = true ->
  exists c1, store_completeness_table W c = (c1, None).
Proof.
  intros p tab c CF TB CW. unfold store_completeness_table. rewrite CF, TB. cbn. rewrite CW. cbn. eauto.
Qed.

End Table.

(** ** Over the reals *)
Open Scope R_scope.

(** [y] is the multiple of 0.00001 nearest to [x]. *)

Lemma stored5_R : forall x : R, @stored5 ROps x = IZR (Rrint (x * 100000)) / 100000.
Proof.
  intros x. unfold stored5, units5. change (@toZ ROps) with Rtrunc. change (@rintv ROps) with (fun x => IZR (Rrint x)).
  cbv beta. rewrite Rtrunc_IZR. unfold lit. rops. reflexivity.
Qed.

Lemma stored5_rounded : forall x : R, rounded5 x (@stored5 ROps x).
Proof.
  intros x. rewrite stored5_R. exists (Rrint (x * 100000)). split; auto.
  pose proof (Rrint_near (x * 100000)) as H. revert H. unfold Rabs. repeat destruct (Rcase_abs _); lra.
Qed.

Lemma stored5_exact : forall x : R, five_decimals x -> @stored5 ROps x = x.
Proof.
  intros x (n & ->). rewrite stored5_R. replace (IZR n / 100000 * 100000) with (IZR n) by lra. now rewrite Rrint_IZR.
Qed.

Theorem C69_proof : forall (W : world ROps) p tab (c c1 : context ROps) p' c2,
  cf_completeness_table_file (cx_config c) = Given p -> cx_table c = Some tab -> tab <> [] ->
  run_job W J_store_completeness_table c = (c1, None) ->
  cf_completeness_table_file (cx_config c2) = Given p' -> cx_files c2 p' = cx_files c1 p ->
  exists tab' c3, run_job W J_retrieve_completeness_table c2 = (c3, None) /\ cx_table c3 = Some tab' /\
    Forall2 (fun r r' => rounded5 (fst r) (fst r') /\ rounded5 (snd r) (snd r')) tab tab' /\
    (Forall (fun r => five_decimals (fst r) /\ five_decimals (snd r)) tab -> tab' = tab).
Proof.
  intros W p tab c c1 p' c2 CF TB NE ST CF2 FF. cbn [run_job] in *.
  pose proof (@store_retrieve ROps W p tab c c1 p' CF TB ST c2 CF2 FF) as R. destruct tab as [|r tab]; [contradiction|].
  exists (map (fun r => (@stored5 ROps (fst r), @stored5 ROps (snd r))) (r :: tab)).
  eexists. split; [exact R|]. split; [reflexivity|]. clear. split.
  - induction (r :: tab) as [|a l IH]; constructor; auto. split; apply stored5_rounded.
  - intros F. induction F as [|a l (F1 & F2) F IH]; auto. cbn [map]. rewrite IH. rewrite !stored5_exact by auto. now destruct a.
Qed.

(** An empty table is stored as an empty file, which cannot be read back. *)
Theorem C69_empty_proof : forall (AR : Ops) (W : world AR) p (c c1 : context AR) p' c2,
  cf_completeness_table_file (cx_config c) = Given p -> cx_table c = Some [] ->
  run_job W J_store_completeness_table c = (c1, None) ->
  cf_completeness_table_file (cx_config c2) = Given p' -> cx_files c2 p' = cx_files c1 p ->
  cx_files c1 p = Some [] /\ run_job W J_retrieve_completeness_table c2 = (c2, Some IOError).
Proof.
  intros AR W p c c1 p' c2 CF TB ST CF2 FF. cbn [run_job] in *. split.
  - unfold store_completeness_table in ST. rewrite CF, TB in ST. cbn [lookup_file bind have] in ST.
    destruct (w_can_write W p); [|discriminate]. cbn [bind finish] in ST. injection ST as <-. cbn.
    unfold write_file. now rewrite (proj2 (text_eqb_eq p p) eq_refl).
  - exact (store_retrieve W p [] c c1 p' CF TB ST c2 CF2 FF).
Qed.
