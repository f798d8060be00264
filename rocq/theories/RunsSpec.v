(** Specification for C151: what a run without jobs needs. *)
From Coq Require Import ZArith Bool Ascii String List.
From Verif Require Import Base Ops CatUtil PyStr EqCatalog SourceModel Nrml World CatalogFilter Jobs Workflow Main FlowSpec InputSpec.
Import ListNotations.

Section RunsSpec.
Context {AR : Ops}.
Variable W : world AR.

(** The sources of a run: those of the source model file, or the default one. *)
Definition run_sources (cf : config AR) (f : files) (ss : list (area_source AR)) : Prop :=
  sources_read W cf f ss \/ (file_unset (cf_source_model_file cf) /\ ss = [default_area_source]).

(** There is a place for the result and the sources can be put into a document. *)
Definition result_possible (cf : config AR) (f : files) : Prop :=
  exists p ss d, cf_result_file cf = Given p /\ w_exists W (dirname p) = true /\ w_can_write W p = true /\
    run_sources cf f ss /\ write_doc (w_str_float W) (w_xml_ok W) ss = Ok d.

(** Nothing in the files stands against a run: no bad catalogue or source model, no bad table. *)
Definition input_good (cf : config AR) (f : files) : Prop :=
  (forall e, ~ bad_input W cf f e) /\
  (forall p e, cf_completeness_table_file cf = Given p -> p <> [] -> ~ bad_table f p e).

End RunsSpec.
