(** Model of main.py and mtoolkit/console.py. *)
From Coq Require Import ZArith Bool String List.
From Verif Require Import Base Ops CatUtil PyStr EqCatalog SourceModel Nrml World CatalogFilter
  Jobs Workflow.
Import ListNotations.
Local Open Scope res_scope.

Section Main.
Context {AR : Ops}.
Variable W : world AR.
(** yaml.load of the configuration file, workflow.py:225-226. *)
Variable yaml_load : text -> res (config AR).

(** AreaSourceWriter(result_file).serialize(sources), main.py:56-57,
    nrml/writer.py:38-64: the document is complete before the file is opened. *)
Definition write_result (c : context AR) : context AR * option exn :=
  finish c (
    let* p := lookup_file AttributeError (cf_result_file (cx_config c)) in
    let* _ := if w_exists W (dirname p) then Ok tt else Err IOError in
    let* ss := have TypeError (cx_sms c) in
    let* d := write_doc (w_str_float W) (w_xml_ok W) ss in
    let* _ := if w_can_write W p then Ok tt else Err IOError in
    Ok (set_files (write_file p (w_xml_print W d) (cx_files c)) c)).

(** The filter chosen by main.py:47-50. *)
Definition choose_filter (cf : config AR) : res sm_filter :=
  let* b := truth no_text (cf_source_model_file cf) in
  Ok (if b then SourceModelCatalogFilter else NullCatalogFilter).

(** main.py:41-57 for a loaded configuration. *)
Definition run_config (cf : config AR) (f : files) : context AR * option exn :=
  let c := init_context cf f in
  match (let* pre := preprocessing_build cf in
         let* pro := processing_build cf in
         let* flt := choose_filter cf in
         Ok (pre, pro, flt)) with
  | Err e => (c, Some e)
  | Ok (pre, pro, flt) =>
      match start W pre pro flt c with
      | (c', Some e) => (c', Some e)
      | (c', None) => write_result c'
      end
  end.

(** Command line arguments, console.py:34-51: nothing, or the parsed options.  -v and
    malformed command lines make argparse exit before anything runs. *)
Inductive argv : Type :=
| NoArguments
| Exits                                          (* argparse prints and exits *)
| Options (input_file : option text) (detailed : bool).

(** What main.py does. *)
Inductive outcome : Type :=
| HelpShown                                      (* help printed, nothing run *)
| Exited
| Ran (c : context AR) (e : option exn)          (* the workflow ran *)
| Raised (e : exn).                              (* failed before the workflow *)

(** cmd_line, console.py:54-71 and main.py:31-57.  A missing input file only prints a
    message; the run goes on and open() raises.  Without -i, input_file[0] is None[0]. *)
Definition main (a : argv) (f : files) : outcome :=
  match a with
  | NoArguments => HelpShown
  | Exits => Exited
  | Options None _ => Raised TypeError
  | Options (Some p) _ =>
      match f p with
      | None => Raised IOError
      | Some content =>
          match yaml_load content with
          | Err e => Raised e
          | Ok cf => let (c, e) := run_config cf f in Ran c e
          end
      end
  end.

(** Does main print the help text and the "non existent input file" message?
    console.py:63-69. *)
Definition prints_help (a : argv) (f : files) : bool :=
  match a with
  | NoArguments => true
  | Options (Some p) _ => match f p with None => true | Some _ => false end
  | _ => false
  end.

(** Logging level and debug.log handler, main.py:37-39 and console.py:74-93: DEBUG (10) with
    -d, INFO (20) otherwise; the log file is opened only below INFO. *)
Definition log_level (detailed : bool) : Z := if detailed then 10%Z else 20%Z.
Definition log_file_opened (detailed : bool) : bool := (log_level detailed <? 20)%Z.

End Main.
