(** * What a user of the downloads relies on. *)

From Coq Require Import List ZArith Bool String.
Import ListNotations.
From Verif Require Import Py download_model.
Local Open Scope string_scope.

Section Spec.
Context {F : Type}.
Variable fetch : string -> option F * result unit.

(** A destination that was given, or the default. *)
Definition chosen (o : option string) (d : string) : string := match o with Some x => x | None => d end.
(** The content of the file at [p]. *)
Definition stored (k : store F) (p : string) (c : F) : Prop := dict_get String.eqb (files k) p = Some c.
Definition unchanged (k k' : store F) (p : string) : Prop := dict_get String.eqb (files k') p = dict_get String.eqb (files k) p.
(** The server sends the whole of what is at an address. *)
Definition sends (url : string) (c : F) : Prop := fetch url = (Some c, Ok tt).
(** Only files of the list are written. *)
Definition only_files (k k' : store F) (l : list (string * string)) : Prop :=
  dirs k' = dirs k /\ forall p, ~ In p (map snd l) -> unchanged k k' p.
(** Every file of the list is what the server sends for its address, and nothing else has changed. *)
Definition transferred (k k' : store F) (l : list (string * string)) : Prop :=
  (forall url p, In (url, p) l -> exists c, sends url c /\ stored k' p c) /\ only_files k k' l.
(** The file can be written. *)
Definition free_place (overwrite : bool) (k : store F) (p : string) : Prop :=
  ~ In p (dirs k) /\ (overwrite = true \/ forall c, ~ stored k p c).
Definition ready (overwrite : bool) (k : store F) (l : list (string * string)) : Prop :=
  forall url p, In (url, p) l -> free_place overwrite k p /\ exists c, sends url c.
(** Files that were there are not lost. *)
Definition nothing_lost (k k' : store F) : Prop := forall p c, stored k p c -> stored k' p c.
End Spec.

(** Addresses and places of the files of the datasets. *)
Definition choreo2_meta (dm : string) : list (string * string) :=
  [("http://olivier.mangin.com/data/choreo2/choreo2.json", dm ++ "/choreo2.json")].
Definition choreo2_data (dm : string) : list (string * string) :=
  app (choreo2_meta dm) [("http://olivier.mangin.com/data/choreo2/choreo2.npz", dm ++ "/choreo2.npz")].
Definition choreo2_features (df : string) : list (string * string) :=
  [("http://olivier.mangin.com/data/choreo2/choreo2_angle_hist.npz", df ++ "/choreo2_angle_hist.npz")].
Definition acorns_meta (year dm : string) : list (string * string) :=
  [("http://olivier.mangin.com/data/acorns-caregiver/Acorns_Y" ++ year ++ ".json", dm ++ "/Acorns_Y" ++ year ++ ".json")].
Definition acorns_features (year df : string) (speakers : list string) : list (string * string) :=
  map (fun s => ("http://olivier.mangin.com/data/acorns-caregiver/acorns_HAC_Y" ++ year ++ "_S" ++ s ++ "_python.mat",
                 df ++ "/acorns_HAC_Y" ++ year ++ "_S" ++ s ++ "_python.mat")) speakers.
Definition four_speakers : list string := ["01"; "02"; "03"; "04"].
Definition ten_speakers : list string := ["01"; "02"; "03"; "04"; "05"; "06"; "07"; "08"; "09"; "10"].
Definition object_files (d : string) : list (string * string) :=
  [("http://olivier.mangin.com/data/objects/single_object_label.json", d ++ "/single_object_label.json");
   ("http://olivier.mangin.com/data/objects/single_object_label.mat", d ++ "/single_object_label.mat")].
