(** The event matrix of a run and the records of the catalogue file (C94). *)
From Coq Require Import ZArith Bool Ascii String List Lia.
From Verif Require Import Base Ops BaseFacts RFacts CatUtil PyStr Csv EqCatalog EqCatSpec EqCatProofs EqCatRow EqCatFile SourceModel
  Nrml World CatalogFilter Recurrence MaxMag Jobs Workflow Main FlowSpec FlowPipe FlowPre FlowOrder MatrixSpec.
Import ListNotations.
Local Open Scope nat_scope.

Section M.
Context {AR : Ops}.
Variable W : world AR.
Hypothesis order_ok : rearranges (w_dict_order W).

Lemma get_item : forall f (e : entry AR) v, get (Some f) e = v -> v <> VNone -> entry_item f e = Ok v.
Proof.
  intros f e v H N. unfold entry_item. induction e as [|(k, x) e IH]; cbn [get] in H; [congruence|].
  cbn [find fst]. destruct (key_eqb (Some f) k); [now subst|auto].
Qed.

Lemma row_event : forall line row e,
  read_entry (w_parse_float W) (w_now_year W) (w_dict_order W) line row = Ok e ->
  exists r, matrix_row e = Ok r /\ record_event W row r.
Proof.
  intros line row e H. assert (L := accepted_length _ _ _ _ _ _ order_ok H).
  destruct (C04_proof _ _ _ _ _ _ order_ok L H) as (_ & Gi & Gf & _ & Go).
  assert (I : forall f, In f ints -> exists z, parse_int (EqCatSpec.cell row f) = Some z /\ entry_item f e = Ok (VInt z)).
  { intros f Hf. destruct (Gi f Hf) as (z & P & G). exists z. split; auto. apply get_item; [exact G|discriminate]. }
  assert (F : forall f, In f floats -> exists x, w_parse_float W (EqCatSpec.cell row f) = Some x /\ entry_item f e = Ok (VFlt x)).
  { intros f Hf. destruct (Gf f Hf) as (z & P & G). exists z. split; auto. apply get_item; [exact G|discriminate]. }
  destruct (I "year"%string ltac:(cbn; auto 10)) as (y & Py & Ey).
  destruct (I "month"%string ltac:(cbn; auto 10)) as (mo & Pm & Em).
  destruct (I "day"%string ltac:(cbn; auto 10)) as (d & Pd & Ed).
  destruct (F "longitude"%string ltac:(cbn; auto 10)) as (lon & Plon & Elon).
  destruct (F "latitude"%string ltac:(cbn; auto 10)) as (lat & Plat & Elat).
  destruct (F "Mw"%string ltac:(cbn; auto 10)) as (mw & Pmw & Emw).
  specialize (Go "sigmaMw"%string _ _ ltac:(do 3 right; left; reflexivity)).
  set (s := EqCatSpec.cell row "sigmaMw") in *.
  assert (S : exists x, entry_item "sigmaMw" e = Ok (VFlt x) /\
    ((w_parse_float W s = Some x /\ ltb x (ofZ 0) = false) \/
     ((forall x, w_parse_float W s = Some x -> ltb x (ofZ 0) = true) /\ x = ofZ 0))).
  { unfold kept_or in Go. destruct (w_parse_float W s) as [x|] eqn:P.
    - destruct (ltb x (ofZ 0)) eqn:N; cbn [negb] in Go.
      + exists (ofZ 0). split; [apply get_item; [exact Go|discriminate]|]. right. split; auto.
        intros x' X. now injection X as <-.
      + exists x. split; [apply get_item; [exact Go|discriminate]|]. left. auto.
    - exists (ofZ 0). split; [apply get_item; [exact Go|discriminate]|]. right. split; auto. discriminate. }
  destruct S as (sg & Es & S).
  exists (mkEvent (ofZ y) (ofZ mo) (ofZ d) lon lat mw sg). split.
  - unfold matrix_row. rewrite Ey, Em, Ed, Elon, Elat, Emw, Es. reflexivity.
  - unfold record_event. cbn. repeat split; eauto.
Qed.

Theorem C94_proof : forall cf f sj c, source_job (cf_source_model_file cf) sj ->
  steps W [J_read_eq_catalog; sj] (init_context cf f) c ->
  exists p content rows m c', cf_eq_catalog_file cf = Given p /\ f p = Some content /\
    csv_read c_init (tl (file_lines content)) = (rows, None) /\
    run_job W J_create_catalog_matrix c = (c', None) /\ cx_matrix c' = Some m /\ cx_working c' = Some m /\
    Forall2 (record_event W) (nonblank rows) m.
Proof.
  intros cf f sj c SJ H.
  inversion H as [|? ? ? c1 ? R1 H1]; subst. inversion H1 as [|? ? ? c2 ? R2 H2]; subst. inversion H2; subst. clear H H1 H2.
  cbn [run_job] in R1. apply finish_ok in R1. apply bind_ok in R1. destruct R1 as (x & XL & R1).
  apply bind_ok in R1. destruct R1 as (x0 & XO & R1). apply bind_ok in R1. destruct R1 as (es & XR & R1). injection R1 as <-.
  set (c1 := set_eq_catalog _ _) in R2.
  assert (E2 : cx_eq_catalog c = Some es).
  { inversion SJ; subst; cbn [run_job] in R2.
    - unfold read_source_model in R2. destruct (bind _ _) as [ct|e] in R2; [|discriminate].
      destruct (w_xml_parse W ct) as [d|]; [|discriminate]. destruct (read_doc (w_parse_float W) d) as (ss, y).
      destruct y as [e|]; [discriminate|]. destruct ss as [|s0 ss]; cbn in R2; [discriminate|]. injection R2 as <-. auto.
    - injection R2 as <-. auto. }
  destruct (C06_all_proof _ _ _ _ _ XR) as (_ & rows & CS & F).
  assert (K : exists m, mapM matrix_row es = Ok m /\ Forall2 (record_event W) (nonblank rows) m).
  { revert F. generalize 0. generalize (nonblank rows). clear -order_ok. intros l. revert es.
    induction l as [|row l IH]; intros es k F; cbn [length seq combine] in F; inversion F; subst.
    - exists []. split; [reflexivity|constructor].
    - destruct (row_event _ _ _ H1) as (r & MR & RE). destruct (IH _ _ H3) as (m & MM & F2).
      exists (r :: m). split; [|now constructor]. cbn [mapM]. rewrite MR, MM. reflexivity. }
  destruct K as (m & MM & F2).
  exists x, x0, rows, m. eexists. unfold lookup_file in XL. unfold open_read in XO. cbn in XL, XO.
  destruct (cf_eq_catalog_file cf); try discriminate. injection XL as ->.
  destruct (f x); [|discriminate]. injection XO as ->.
  split; auto. split; auto. split; auto. cbn [run_job]. unfold create_catalog_matrix. rewrite E2. cbn [have bind]. rewrite MM.
  cbn [bind finish]. split; [reflexivity|]. cbn. auto.
Qed.

End M.
