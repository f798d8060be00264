(** Proofs for C87: result files in a directory. *)
From Coq Require Import Ascii String List.
From Verif Require Import Base Ops PyStr PyStrProofs EqCatalog SourceModel Nrml World CatalogFilter Jobs Workflow Main
  FlowSpec PathSpec FlowPipe FlowFiles.
Import ListNotations.

Lemma drop_bare : forall n r, bare_name n -> drop_to_slash (n ++ r) = drop_to_slash r.
Proof.
  induction n as [|a n IH]; intros r H; auto. cbn [app drop_to_slash]. destruct (Ascii.eqb a "/") eqn:E.
  - apply Ascii.eqb_eq in E. elim H. now left.
  - apply IH. intros I. apply H. now right.
Qed.

Lemma drop_all : forall s r, (forall c, In c s -> c = "/"%char) -> drop_slashes (s ++ r) = drop_slashes r.
Proof.
  induction s as [|a s IH]; intros r H; auto. cbn [app drop_slashes]. rewrite (H a) by (left; auto).
  rewrite Ascii.eqb_refl. apply IH. intros c I. apply H. now right.
Qed.

Lemma slashes_rev : forall s, slashes s -> slashes (rev s).
Proof.
  intros s (N & H). split.
  - intros E. apply N. rewrite <- (rev_involutive s), E. reflexivity.
  - intros c I. apply H. now apply in_rev.
Qed.

Lemma drop_to_first : forall s r, slashes s -> drop_to_slash (s ++ r) = s ++ r.
Proof.
  intros [|a s] r (N & H); [congruence|]. cbn [app drop_to_slash]. rewrite (H a) by (left; auto).
  rewrite Ascii.eqb_refl. reflexivity.
Qed.

Lemma lies_dirname : forall p d, lies_in p d -> dirname p = d.
Proof.
  intros p d [a c s name D C S B E | name S B E]; subst p; unfold dirname.
  - rewrite !rev_app_distr, <- app_assoc, drop_bare by (apply bare_reverse; auto).
    rewrite drop_to_first by (apply slashes_rev; auto). rewrite drop_all by (apply slashes_rev; auto).
    subst d. rewrite rev_app_distr. cbn [rev app drop_slashes].
    destruct (Ascii.eqb c "/") eqn:X; [apply Ascii.eqb_eq in X; congruence|].
    cbn [rev]. rewrite rev_involutive. reflexivity.
  - rewrite rev_app_distr, drop_bare by (apply bare_reverse; auto).
    rewrite <- (app_nil_r (rev d)). rewrite drop_to_first by (apply slashes_rev; auto).
    rewrite drop_all by (apply slashes_rev; auto). cbn [drop_slashes]. rewrite app_nil_r. apply rev_involutive.
Qed.

Section Dir.
Context {AR : Ops}.
Variable W : world AR.

Lemma C87_dir_proof : forall cf f p d pre pro flt c1, cf_result_file cf = Given p -> lies_in p d ->
  preprocessing_build cf = Ok pre -> processing_build cf = Ok pro -> filter_for cf flt ->
  start W pre pro flt (init_context cf f) = (c1, None) ->
  (w_exists W d = false -> run_config W cf f = (c1, Some IOError)) /\
  (w_exists W d = true -> w_can_write W p = true ->
   forall ss doc, cx_sms c1 = Some ss -> write_doc (w_str_float W) (w_xml_ok W) ss = Ok doc ->
   exists c', run_config W cf f = (c', None) /\ cx_files c' p = Some (w_xml_print W doc)).
Proof.
  intros cf f p d pre pro flt c1 R L B1 B2 FF P.
  assert (K : cx_config c1 = cf) by (apply start_keeps in P; now destruct P).
  assert (C : choose_filter cf = Ok flt).
  { unfold choose_filter. destruct FF as [(S1 & ->)|(S1 & ->)]; [rewrite (truth_set _ S1)|rewrite (truth_unset _ S1)]; reflexivity. }
  assert (E : run_config W cf f = write_result W c1).
  { unfold run_config. rewrite B1, B2. cbn [bind]. rewrite C. cbn [bind]. rewrite P. reflexivity. }
  rewrite E. unfold write_result. rewrite K, R. cbn [lookup_file bind]. rewrite (lies_dirname _ _ L). split.
  - intros X. rewrite X. reflexivity.
  - intros X CW ss doc S D. rewrite X, S. cbn [bind have]. rewrite D. cbn [bind]. rewrite CW. cbn [bind finish].
    eexists. split; [reflexivity|]. cbn. unfold write_file. rewrite (proj2 (text_eqb_eq p p) eq_refl). reflexivity.
Qed.
End Dir.
