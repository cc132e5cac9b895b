(** * SpecScreen: when a template was last read, and the quick fixes. *)
From Verif Require Import Base RString Utf8 Types Captures MSearchErrors MLspFiles MLspTask MChannels.
From Verif Require Import SpecLint SpecChannels SpecClient SpecQueries5.

(** [uri] was last read, opened or saved, when the disk was [F]; the state of the
    server right after that was [s1].  Since then it was neither edited nor was
    the workspace indexed. *)
Definition last_reading {T} url b (y : sys T) (uri : string) (F : fs) (s1 : task_state T) : Prop :=
  exists pre m post x, y_taken y = pre ++ (m, F) :: post /\ refreshes uri m /\ Forall (elsewhere uri) (map fst post) /\
    replay url b (task0 T) (pre ++ [(m, F)]) = Ok (s1, x).
(** The templates [sts] refers to that were not on the disk [F]. *)
Definition unfound (F : fs) (dir : string) (sts : list istmt) (r : sref) : Prop :=
  In r (flat_map refs sts) /\ missing F dir (snd r) = true.
(** The cursor is in the quoted name or at one of its ends. *)
Definition touches (cur : point) (r : sref) : Prop := pt_le (n_start (fst r)) cur /\ pt_le cur (n_end (fst r)).
(** The request [m] is the first thing that was asked after [y]; the server is
    through with it in [y2]. *)
Definition asked_next {T} url b (y y2 : sys T) (m : msg) (F : fs) : Prop :=
  exists l2 s2 c, exec url b (sys0 T) l2 = Some y2 /\ y_task y2 = TIdle s2 /\ y_taken y2 = y_taken y ++ (m, F) :: c.
