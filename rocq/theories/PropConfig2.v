(** * PropConfig2: property C75 in a workspace with a symbolic link. *)
From Verif Require Import Base RString Utf8 Rope Types Captures.
From Verif Require Import MDefinition MTemplates MSearchErrors MLspFiles MLspTask.
From Verif Require Import SpecFiles SpecConfig PConfig PropFiles PropConfig.

(** ** C75: an opened file and its indexed copy are one entry *)
(** False also for a path without reserved characters, if the directory of the
    templates is a link: the index has the resolved path, the editor the path the user
    sees.  [path] and the listed file are the same file, and after indexing, opening
    and editing it there are two copies with different texts. *)
Definition c75_linked : fs :=
  mkfs (fun p => if String.eqb p "t/a.html" || String.eqb p "/w/t/a.html" then CanonOk "/shared/a.html" else CanonOk p) (fun n => Some [97])
    (fun d => if String.eqb d "t" then [WFile "t/a.html"] else []) (fun _ => None).
Theorem C75_link_refuted :
  exists (T : ts) F url b (s : task_state T) listed path name t1 t2,
    parse_total T /\ entry F c40_cfg (WFile listed) /\ f_canon F listed = CanonOk name /\ f_canon F path = CanonOk name /\
    Forall (fun a => unreserved a = true) (list_ascii_of_string path) /\ Forall (fun a => unreserved a = true) (list_ascii_of_string name) /\
    on_disk F (entry F c40_cfg) (editor_uri name) t1 Template /\
    run_msgs F url b (mktask c40_cfg (ls_default T) 0)
      [MInitialized; MDidOpen (editor_uri path) t1;
       MDidChange (editor_uri path) [mkchange (Some (mkrange (mkpos 0 1) (mkpos 0 1))) [120]]] = Ok s /\
    sget (editor_uri path) (ls_docs (tk_data s)) = Some t2 /\ sget (editor_uri name) (ls_docs (tk_data s)) = Some t1 /\ t1 <> t2.
Proof.
  exists ts_echo, c75_linked, (fun u => Some u), Debug. eexists. exists "t/a.html"%string, "/w/t/a.html"%string, "/shared/a.html"%string, [97], [97; 120].
  split; [intros l c old; discriminate|]. split; [exists "t"%string; split; [now left|now left]|]. split; [reflexivity|]. split; [reflexivity|].
  split; [repeat constructor|]. split; [repeat constructor|].
  split. { exists "t/a.html"%string, "/shared/a.html"%string. split; [exists "t"%string; split; [now left|now left]|]. split; [now apply file_ext_spec|]. repeat split. }
  split; [vm_compute; reflexivity|]. split; [vm_compute; reflexivity|]. split; [vm_compute; reflexivity|]. discriminate.
Qed.
Print Assumptions C75_link_refuted.
