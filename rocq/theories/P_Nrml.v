(** Properties C59-C62, C84 and C85: reading and writing source models (nrml/reader.py, nrml/writer.py). *)
From Coq Require Import ZArith Bool Ascii String List Permutation.
From Coq Require Import Floats.SpecFloat.
From Verif Require Import Base Ops FloatOps PyStr PyStrProofs SourceModel Nrml NrmlSpec NrmlRead NrmlRound PyFloat PyFloatProofs NrmlFinal FloatSpec PyTexts.
Import ListNotations.

(** C59.  Sources that share their document ids, written, indented and parsed, are read back
    equal and in order. *)
Theorem C59_round_trip :
  forall (AR : Ops) (parse_float : text -> option T) (str_float : T -> text) (xml_ok : text -> bool) (indent : nat -> option text), accepts_printable xml_ok -> prints_words str_float -> forall s0 ss,
  Forall (writable xml_ok) (s0 :: ss) ->
  (forall s, In s (s0 :: ss) -> as_nrml_id s = as_nrml_id s0 /\ as_sm_id s = as_sm_id s0) ->
  (forall s x, In s (s0 :: ss) -> In x (source_numbers s) -> parse_float (str_float x) = Some x) ->
  exists d ss', write_doc str_float xml_ok (s0 :: ss) = Ok d /\
    read_doc parse_float (reparsed indent 0 d) = (ss', None) /\
    map eq_part ss' = map eq_part (s0 :: ss).
Proof. exact (@C59_proof). Qed.
Print Assumptions C59_round_trip.

Example C59_case : forall lm, exists s0 s1 : area_source (FOps lm),
  accepts_printable printableb /\ prints_words (AR := FOps lm) py_str /\
  Forall (writable printableb) [s0; s1] /\
  (forall s, In s [s0; s1] -> as_nrml_id s = as_nrml_id s0 /\ as_sm_id s = as_sm_id s0) /\
  (forall s x, In s [s0; s1] -> In x (source_numbers s) -> py_float (py_str x) = Some x) /\ eq_part s0 <> eq_part s1.
Proof.
  intros lm. exists (wsource lm "sm" (F_ofZ 1)), (wsource lm "sm" (F_ofZ 2)).
  split; [exact printableb_ok|]. split; [exact py_str_word|].
  split; [repeat (apply Forall_cons; [now apply wsource_writable|]); constructor|].
  split; [intros s [<-|[<-|[]]]; split; reflexivity|].
  split; [intros s x [<-|[<-|[]]]; apply wsource_numbers; vm_compute; reflexivity|].
  intros E. assert (H : tg_a (rm_tgr (as_rate (wsource lm "sm" (F_ofZ 1)))) = tg_a (rm_tgr (as_rate (wsource lm "sm" (F_ofZ 2))))) by (unfold eq_part in E; congruence).
  change (F_ofZ 1 = F_ofZ 2) in H. vm_compute in H. discriminate.
Qed.

(** C59, with CPython's float() and str(): no assumption on the conversions is left; the numbers
    are doubles nearest to decimals of at most twelve digits. *)
Theorem C59_round_trip_twelve_digits :
  forall (lm : libm) (xml_ok : text -> bool) (indent : nat -> option text), accepts_printable xml_ok -> forall s0 ss,
  Forall (writable (AR := FOps lm) xml_ok) (s0 :: ss) ->
  (forall s, In s (s0 :: ss) -> as_nrml_id s = as_nrml_id s0 /\ as_sm_id s = as_sm_id s0) ->
  (forall s x, In s (s0 :: ss) -> In x (source_numbers s) -> twelve_digits x) ->
  exists d ss', write_doc (AR := FOps lm) py_str xml_ok (s0 :: ss) = Ok d /\
    read_doc (AR := FOps lm) py_float (reparsed indent 0 d) = (ss', None) /\
    map eq_part ss' = map eq_part (s0 :: ss).
Proof. exact (@C59_cpython_proof). Qed.
Print Assumptions C59_round_trip_twelve_digits.

(** C60, as stated, is false: two sources of different source models both come back with the
    source model id of the first. *)
Theorem C60_keeps_document_ids_refuted :
  forall lm : libm, exists ss d ss',
  Forall (writable printableb) ss /\
  write_doc (AR := FOps lm) py_str printableb ss = Ok d /\
  read_doc (AR := FOps lm) py_float (reparsed demo_indent 0 d) = (ss', None) /\
  map as_sm_id ss = [Some (t "sm1"); Some (t "sm2")] /\ map as_sm_id ss' = [Some (t "sm1"); Some (t "sm1")].
Proof. exact (@C60_refuted_proof). Qed.
Print Assumptions C60_keeps_document_ids_refuted.

(** C60, what holds: every source comes back with its own texts and with the document ids of
    the first source.  Missing: the ids of the other sources (refuted). *)
Theorem C60_keeps_document_ids_partial :
  forall (AR : Ops) (parse_float : text -> option T) (str_float : T -> text) (xml_ok : text -> bool) (indent : nat -> option text), accepts_printable xml_ok -> prints_words str_float -> forall s0 ss,
  Forall (writable xml_ok) (s0 :: ss) ->
  (forall s x, In s (s0 :: ss) -> In x (source_numbers s) -> exists y, parse_float (str_float x) = Some y) ->
  exists d ss', write_doc str_float xml_ok (s0 :: ss) = Ok d /\
    read_doc parse_float (reparsed indent 0 d) = (ss', None) /\
    Forall2 (fun s s' => as_nrml_id s' = as_nrml_id s0 /\ as_sm_id s' = as_sm_id s0 /\ source_texts s' = source_texts s) (s0 :: ss) ss'.
Proof. exact (@C60_partial_proof). Qed.
Print Assumptions C60_keeps_document_ids_partial.

(** C61, as stated, is false: 0.30000000000000004 is written 0.3 and read back smaller. *)
Theorem C61_keeps_numbers_refuted :
  forall lm : libm, exists s d s',
  writable printableb s /\
  write_doc (AR := FOps lm) py_str printableb [s] = Ok d /\
  read_doc (AR := FOps lm) py_float (reparsed demo_indent 0 d) = ([s'], None) /\
  tg_a (rm_tgr (as_rate s)) <> tg_a (rm_tgr (as_rate s')) /\
  @ltb (FOps lm) (tg_a (rm_tgr (as_rate s'))) (tg_a (rm_tgr (as_rate s))) = true.
Proof. exact (@C61_refuted_proof). Qed.
Print Assumptions C61_keeps_numbers_refuted.

(** C61, what holds: the lists keep their lengths and each number read back is float(str(x)) of
    the number written in that place.  Missing: numbers with more than twelve significant digits
    (refuted). *)
Theorem C61_keeps_numbers_partial :
  forall (AR : Ops) (parse_float : text -> option T) (str_float : T -> text) (xml_ok : text -> bool) (indent : nat -> option text), accepts_printable xml_ok -> prints_words str_float -> forall s0 ss,
  Forall (writable xml_ok) (s0 :: ss) ->
  (forall s x, In s (s0 :: ss) -> In x (source_numbers s) -> exists y, parse_float (str_float x) = Some y) ->
  exists d ss', write_doc str_float xml_ok (s0 :: ss) = Ok d /\
    read_doc parse_float (reparsed indent 0 d) = (ss', None) /\
    Forall2 (fun s s' => source_shape s' = source_shape s /\
      Forall2 (fun x y => parse_float (str_float x) = Some y) (source_numbers s) (source_numbers s')) (s0 :: ss) ss'.
Proof. exact (@C61_partial_proof). Qed.
Print Assumptions C61_keeps_numbers_partial.

(** C61, what holds of CPython's conversions: every number that is the double nearest to a decimal
    of at most twelve digits comes back equal, in its place.  Missing: numbers with more digits
    (refuted) and numbers with exponents at the ends of the range of the doubles. *)
Theorem C61_keeps_twelve_digits_partial :
  forall (lm : libm) (xml_ok : text -> bool) (indent : nat -> option text), accepts_printable xml_ok -> forall s0 ss,
  Forall (writable (AR := FOps lm) xml_ok) (s0 :: ss) ->
  (forall s x, In s (s0 :: ss) -> In x (source_numbers s) -> twelve_digits x) ->
  exists d ss', write_doc (AR := FOps lm) py_str xml_ok (s0 :: ss) = Ok d /\
    read_doc (AR := FOps lm) py_float (reparsed indent 0 d) = (ss', None) /\
    Forall2 (fun s s' => source_shape s' = source_shape s /\ source_numbers s' = source_numbers s) (s0 :: ss) ss'.
Proof. exact (@C61_twelve_proof). Qed.
Print Assumptions C61_keeps_twelve_digits_partial.

(** A source with a = -12345.6789012 and the default numbers. *)
Example C61_twelve_case : forall lm, exists s : area_source (FOps lm), writable printableb s /\
  (forall x, In x (source_numbers s) -> twelve_digits x) /\
  In (F_decimal true 123456789012 (-7)) (source_numbers s).
Proof.
  intros lm. exists (wsource lm "sm" (F_decimal true 123456789012 (-7))). split; [now apply wsource_writable|].
  split; [|cbn -[py_float py_str F_ofZ SFdiv F_decimal]; tauto].
  intros x I. cbn -[py_float py_str F_ofZ SFdiv F_decimal] in I.
  repeat (destruct I as [<-|I]; [first [apply literal_twelve; split; (reflexivity || discriminate)
    |apply (is_literal _ false 0 0); [vm_compute; reflexivity|split; (reflexivity || discriminate)..]
    |apply (is_literal _ false 90 0); [vm_compute; reflexivity|split; (reflexivity || discriminate)..]
    |apply (is_literal _ false 5000 0); [vm_compute; reflexivity|split; (reflexivity || discriminate)..]
    |apply (is_literal _ false 65 (-1)); [vm_compute; reflexivity|split; (reflexivity || discriminate)..]]|]). destruct I.
Qed.

Example C60_C61_case : forall lm, Forall (writable printableb) [wsource lm "sm1" three; wsource lm "sm2" three] /\
  (forall s x, In s [wsource lm "sm1" three; wsource lm "sm2" three] -> In x (source_numbers s) -> exists y, py_float (py_str x) = Some y).
Proof.
  intros lm. split; [repeat (apply Forall_cons; [now apply wsource_writable|]); constructor|].
  intros s x [<-|[<-|[]]]; apply (wsource_reads lm _ _ (S754_finite false 5404319552844595 (-54))); vm_compute; reflexivity.
Qed.

(** C62.  Every areaSource of a document is read, in document order, until one is incomplete;
    each object says what its element and its own enclosing elements say. *)
Theorem C62_reads_every_source :
  forall (AR : Ops) (parse_float : text -> option T), forall d, not_nested d ->
  (exists ss, read_doc parse_float d = (ss, None) /\
     Forall2 (fun p s => represents parse_float (fst p) (snd p) s) (area_elements d) ss) \/
  (exists pre p post ss x, area_elements d = pre ++ p :: post /\ read_doc parse_float d = (ss, Some x) /\
     Forall2 (fun p s => represents parse_float (fst p) (snd p) s) pre ss /\
     ~ (exists s, represents parse_float (fst p) (snd p) s)).
Proof. exact (@C62_proof). Qed.
Print Assumptions C62_reads_every_source.

(** C62.  Even in documents with nested areaSource elements each is read once. *)
Theorem C62_reads_every_source_any :
  forall (AR : Ops) (parse_float : text -> option T), forall d ss, read_doc parse_float d = (ss, None) ->
  exists ps, Permutation ps (area_elements d) /\ Forall2 (fun p s => represents parse_float (fst p) (snd p) s) ps ss.
Proof. exact (@C62_any_proof). Qed.
Print Assumptions C62_reads_every_source_any.

(** C84.  An object is made exactly from a complete element, and then says what it says. *)
Theorem C84_object_of_element :
  forall (AR : Ops) (parse_float : text -> option T), forall anc e s, parse_area_source parse_float anc e = Ok s <-> represents parse_float anc e s.
Proof. exact (@parse_iff). Qed.
Print Assumptions C84_object_of_element.

(** A document with two source models, other elements in between, and one source in each. *)
Definition demo_doc (lm : libm) : xml :=
  let e s := elem_of (AR := FOps lm) py_str s in
  Elem ROOT [(GML_ID, t "n")] None
    [Elem SOURCE_MODEL [(GML_ID, t "sm1")] None [Elem CONFIG [] None []; e (wsource lm "x" (F_ofZ 1))];
     Elem CONFIG [] None [];
     Elem SOURCE_MODEL [(GML_ID, t "sm2")] None [e (wsource lm "x" (F_ofZ 2)); Elem CONFIG [] None []]].
Example C62_C84_case : forall lm, not_nested (demo_doc lm) /\ length (area_elements (demo_doc lm)) = 2 /\
  map (as_sm_id (AR := FOps lm)) (fst (read_doc (AR := FOps lm) py_float (demo_doc lm))) = [Some (t "sm1"); Some (t "sm2")].
Proof.
  intros lm. split; [|split].
  - apply not_nested_b. vm_compute. reflexivity.
  - reflexivity.
  - assert (H : forallb (fun p => let '(a, b) := p in match a with Some u => text_eqb u b | None => false end)
        (combine (map (as_sm_id (AR := FOps lm)) (fst (read_doc (AR := FOps lm) py_float (demo_doc lm)))) [t "sm1"; t "sm2"]) = true
      /\ length (map (as_sm_id (AR := FOps lm)) (fst (read_doc (AR := FOps lm) py_float (demo_doc lm)))) = 2).
    { split; vm_compute; reflexivity. }
    destruct H as (H & L). destruct (map _ _) as [|[u|] [|[v|] [|]]]; try discriminate; cbn -[text_eqb] in H;
    rewrite ?andb_true_iff in H; try (destruct H as (_ & H & _); discriminate); try (destruct H; discriminate).
    destruct H as (A & B & _). apply text_eqb_eq in A, B. now subst.
Qed.

(** C85.  An empty list of sources and a missing attribute make the writer raise. *)
Theorem C85_write_failures :
  forall (AR : Ops) (str_float : T -> text) (xml_ok : text -> bool), forall ss, write_doc str_float xml_ok [] = Err IndexError /\
  (forall s, In s ss -> as_id s = None \/ ab_srs (as_boundary s) = None \/ tg_type (rm_tgr (as_rate s)) = None \/ dd_type (as_depth s) = None ->
     exists x, write_doc str_float xml_ok ss = Err x).
Proof. exact (@write_fails_proof). Qed.
Print Assumptions C85_write_failures.

Example C85_case : forall lm, exists s : area_source (FOps lm), as_id s = None /\
  write_doc (AR := FOps lm) py_str printableb [wsource lm "x" (F_ofZ 1); s] = Err TypeError.
Proof.
  intros lm. set (w := wsource lm "x" (F_ofZ 1)).
  exists (mkSource (AR := FOps lm) (as_nrml_id w) (as_sm_id w) None (as_name w) (as_tect w) (as_boundary w) (as_rate w) (as_depth w) (as_hypo w) None None None).
  split; [reflexivity|]. vm_compute. reflexivity.
Qed.
