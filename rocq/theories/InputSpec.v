(** Specification for C148: configurations that can be run, and input that cannot be used. *)
From Coq Require Import ZArith Bool Ascii String List.
From Verif Require Import Base Ops CatUtil PyStr Csv EqCatalog SourceModel Nrml World CatalogFilter Jobs Workflow Main FlowSpec.
Import ListNotations.

Section InputSpec.
Context {AR : Ops}.
Variable W : world AR.

(** All keys that are looked up are there and all job names are known. *)
Definition usable (cf : config AR) : Prop :=
  (file_set (cf_source_model_file cf) \/ file_unset (cf_source_model_file cf)) /\
  ((exists l js, jobs_set (cf_preprocessing_jobs cf) l /\ Forall2 names l js /\
      (file_set (cf_pprocessing_result_file cf) \/ file_unset (cf_pprocessing_result_file cf))) \/
   (jobs_unset (cf_preprocessing_jobs cf) /\
      (file_set (cf_completeness_table_file cf) \/ file_unset (cf_completeness_table_file cf)))) /\
  ((exists l js, jobs_set (cf_processing_jobs cf) l /\ Forall2 names l js) \/ jobs_unset (cf_processing_jobs cf)).

(** What the catalogue file gives. *)
Definition catalogue_gives (cf : config AR) (f : files) (r : res (list (entry AR))) : Prop :=
  exists p content, cf_eq_catalog_file cf = Given p /\ f p = Some content /\
    read_eq_catalog (w_parse_float W) (w_now_year W) (w_dict_order W) content = r.

(** Input on which a run cannot be based, and the exception for it. *)
Inductive bad_input (cf : config AR) (f : files) : exn -> Prop :=
| BI_no_catalogue : forall p, cf_eq_catalog_file cf = Given p -> f p = None -> bad_input cf f IOError
| BI_bad_catalogue : forall e, catalogue_gives cf f (Err e) -> bad_input cf f e
| BI_no_model : forall es p, catalogue_gives cf f (Ok es) -> cf_source_model_file cf = Given p -> p <> [] ->
    f p = None -> bad_input cf f IOError
| BI_not_xml : forall es p content, catalogue_gives cf f (Ok es) -> cf_source_model_file cf = Given p -> p <> [] ->
    f p = Some content -> w_xml_parse W content = None -> bad_input cf f XmlSyntaxError
| BI_bad_source : forall es p content d ss e, catalogue_gives cf f (Ok es) -> cf_source_model_file cf = Given p -> p <> [] ->
    f p = Some content -> w_xml_parse W content = Some d -> read_doc (w_parse_float W) d = (ss, Some e) -> bad_input cf f e
| BI_no_source : forall es p content d, catalogue_gives cf f (Ok es) -> cf_source_model_file cf = Given p -> p <> [] ->
    f p = Some content -> w_xml_parse W content = Some d -> read_doc (w_parse_float W) d = ([], None) -> bad_input cf f TypeError
| BI_no_event : catalogue_gives cf f (Ok []) -> file_unset (cf_source_model_file cf) -> bad_input cf f IndexError
| BI_no_event_model : forall p content d ss, catalogue_gives cf f (Ok []) -> cf_source_model_file cf = Given p -> p <> [] ->
    f p = Some content -> w_xml_parse W content = Some d -> read_doc (w_parse_float W) d = (ss, None) -> ss <> [] -> bad_input cf f IndexError.

(** A completeness table that cannot be used: none, nothing in it, rows of different lengths, or
    values that do not come in pairs. *)
Definition table_lines (content : text) : list text :=
  filter (fun l => match l with [] => false | _ => true end) (map strip (file_lines content)).
Definition cells (l : text) : nat := length (split_on chr_comma l).

Inductive bad_table (f : files) (p : text) : exn -> Prop :=
| BT_missing : f p = None -> bad_table f p IOError
| BT_blank : forall content, f p = Some content -> table_lines content = [] -> bad_table f p IOError
| BT_ragged : forall content l l', f p = Some content -> In l (table_lines content) -> In l' (table_lines content) ->
    cells l <> cells l' -> bad_table f p ValueError
| BT_odd : forall content n, f p = Some content -> (forall l, In l (table_lines content) -> cells l = n) ->
    Nat.odd (n * length (table_lines content)) = true -> bad_table f p ValueError.

End InputSpec.
