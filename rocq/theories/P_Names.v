(** Property C135: the tectonic regions of the NRML schema and TectonicRegionBuilder
    (nrml_seismic.xsd:42-51, tectonic_region.py:253-281).  Property C136: storing what was read
    (eqcatalog.py). *)
From Coq Require Import ZArith Reals List Bool String Ascii.
From Verif Require Import Base Ops FloatOps PyStr Csv EqCatalog EqCatSpec SourceModel Nrml NrmlSchema Tectonic World
  Libm Demo FlowDemo FlowWitness FlowCases EqCatWitness ZoneCases NameProofs.
Import ListNotations.

(** C135 is false: the region of a valid source is refused. *)
Theorem C135_schema_regions_refuted : exists e, tectonic_region e /\
  forall s, x_text e = Some s ->
    @create_tect_region_by_name ROps (string_of_list_ascii s) None None None = Err ValueError.
Proof. exact C135_refuted_proof. Qed.
Print Assumptions C135_schema_regions_refuted.

(** Exactly three of the five names of the schema are known. *)
Theorem C135_schema_regions_partial : forall e, tectonic_region e -> exists s, x_text e = Some s /\
  (In s [t "Active Shallow Crust"; t "Subduction Interface"; t "Volcanic"] ->
     exists r, @create_tect_region_by_name ROps (string_of_list_ascii s) None None None = Ok r) /\
  (~ In s [t "Active Shallow Crust"; t "Subduction Interface"; t "Volcanic"] ->
     @create_tect_region_by_name ROps (string_of_list_ascii s) None None None = Err ValueError).
Proof. exact C135_partial_proof. Qed.
Print Assumptions C135_schema_regions_partial.

Example C135_case : tectonic_region (Elem TECTONIC_REGION [] (Some (t "Volcanic")) []) /\
  tectonic_region (Elem TECTONIC_REGION [] (Some (t "Stable Shallow Crust")) []).
Proof.
  split; (split; [reflexivity|]); (split; [split; constructor|]); (split; [reflexivity|]);
    eexists; (split; [reflexivity|]); cbn [In TECTONIC_REGIONS]; tauto.
Qed.

(** C136: entries that were read are always written, whatever repr() prints. *)
Theorem C136_read_entries_stored : forall (AR : Ops) (W : world AR), rearranges (w_dict_order W) ->
  forall content es, read_eq_catalog (w_parse_float W) (w_now_year W) (w_dict_order W) content = Ok es ->
  forall sel, incl sel es -> exists out, write_rows (w_repr_float W) sel = Ok out.
Proof. exact C136_proof. Qed.
Print Assumptions C136_read_entries_stored.

Example C136_case : rearranges (w_dict_order DW) /\
  read_eq_catalog (w_parse_float DW) (w_now_year DW) (w_dict_order DW) (ctext quakes) = Ok (entries_in (ctext quakes)) /\
  List.length (entries_in (ctext quakes)) = 14.
Proof. exact C136_case_proof. Qed.
