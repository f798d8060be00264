(** Proof of C149. *)
From Coq Require Import ZArith Bool Ascii String List.
From Verif Require Import Base Ops CatUtil PyStr EqCatalog SourceModel Nrml World CatalogFilter Jobs Workflow Main FlowSpec FlowPipe FlowValid
  WholeSpec WholeProofs DefaultSpec.
Import ListNotations.

Section DefaultProofs.
Context {AR : Ops}.
Variable W : world AR.

Lemma default_whole : forall s : area_source AR, same_but_rates default_area_source s -> whole_region s.
Proof.
  intros s (a & b & mn & mx & sb & sa & mm & ->). split; try reflexivity.
  intros n I. cbn in I. repeat (destruct I as [<-|I]; [reflexivity|]). destruct I.
Qed.

Theorem C149_proof : forall (cf : config AR) f c', run_config W cf f = (c', None) -> file_unset (cf_source_model_file cf) ->
  exists p d s, cf_result_file cf = Given p /\ cx_files c' p = Some (w_xml_print W d) /\
    write_doc (w_str_float W) (w_xml_ok W) [s] = Ok d /\ whole_region s.
Proof.
  intros cf f c' H U. destruct (result_sources W cf f c' H) as (p & d & ss & ss' & RF & CF & I & K & WR).
  assert (E : ss = [default_area_source]).
  { destruct I as [((q & ct & dc & SM & NE & _) & _)|(_ & E)]; auto. destruct U as [U|U]; rewrite U in SM; [discriminate|]. injection SM as <-. contradiction. }
  subst ss. inversion K as [|? s ? l S N]; subst. inversion N; subst.
  exists p, d, s. split; auto. split; auto. split; auto. now apply default_whole.
Qed.

Theorem C149_no_processing_proof : forall (cf : config AR) f c', run_config W cf f = (c', None) -> only_processing cf ->
  (forall l, cf_preprocessing_jobs cf = Given l -> ~ In "Retrieve_completeness_table"%string l) ->
  file_unset (cf_source_model_file cf) -> cf_apply_processing_jobs cf = Null \/ jobs_unset (cf_processing_jobs cf) ->
  exists p d s, cf_result_file cf = Given p /\ cx_files c' p = Some (w_xml_print W d) /\
    write_doc (w_str_float W) (w_xml_ok W) [s] = Ok d /\ whole_region s /\ without_rates s.
Proof.
  intros cf f c' H OP NR U N. destruct (C139_proof W cf f c' H OP NR) as (p & d & ss' & RF & CF & CO & WR).
  destruct CO as (es & m & w & tab & ss & flt & _ & _ & _ & Z & R).
  assert (E : ss = [default_area_source]).
  { destruct Z as [((q & ct & dc & SM & NE & _) & _)|(_ & E & _)]; auto. destruct U as [U|U]; rewrite U in SM; [discriminate|]. injection SM as <-. contradiction. }
  subst ss.
  assert (E : ss' = [default_area_source]).
  { destruct R as [(_ & E)|(u & js & A & L & F)]; auto. destruct N as [N|N]; [congruence|].
    assert (js = []) as ->.
    { destruct L as [(l & (J & NE) & _)|(_ & E)]; auto. destruct N as [N|N]; rewrite N in J; [discriminate|]. injection J as <-. contradiction. }
    inversion F as [|? s ? l P Q]; subst. inversion Q; subst. destruct P as (eqs & _ & P). inversion P; subst. reflexivity. }
  subst ss'. exists p, d, default_area_source. split; auto. split; auto. split; auto. split; [|repeat split].
  apply default_whole. do 7 eexists. reflexivity.
Qed.

End DefaultProofs.
