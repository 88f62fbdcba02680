(** The record classes of the Renoise song format as a library user sees them: what
    their constructors take, what an instance holds and what is written for it. *)
From Coq Require Import ZArith List Bool String Ascii.
From Verif.Model Require Import Dataclass Dao.
From Verif.Spec Require Import Text SongFile.
Import ListNotations.
Open Scope Z_scope.
Open Scope list_scope.
Open Scope string_scope.

Definition song_classes : list (string * list fdecl) :=
  [("RenoiseSong", RenoiseSong_fields); ("GlobalSongData", GlobalSongData_fields);
   ("GlobalSongData.ShuffleAmounts", GlobalSongData_ShuffleAmounts_fields);
   ("RenoiseSong.Instruments", RenoiseSong_Instruments_fields); ("RenoiseInstrument", RenoiseInstrument_fields);
   ("RenoiseSong.Tracks", RenoiseSong_Tracks_fields); ("SequencerTrack", SequencerTrack_fields);
   ("SequencerMasterTrack", SequencerMasterTrack_fields); ("SequencerSendTrack", SequencerSendTrack_fields);
   ("TrackFilterDeviceChain", TrackFilterDeviceChain_fields);
   ("TrackFilterDeviceChain.Devices", TrackFilterDeviceChain_Devices_fields);
   ("TrackMixerDevice", TrackMixerDevice_fields); ("MasterTrackMixerDevice", MasterTrackMixerDevice_fields);
   ("SendTrackMixerDevice", SendTrackMixerDevice_fields); ("PatternPool", PatternPool_fields);
   ("PatternPool.Patterns", PatternPool_Patterns_fields); ("Pattern", Pattern_fields);
   ("Pattern.Tracks", Pattern_Tracks_fields); ("PatternTrack", PatternTrack_fields);
   ("PatternTrack.Lines", PatternTrack_Lines_fields); ("PatternMasterTrack", PatternMasterTrack_fields);
   ("PatternSendTrack", PatternSendTrack_fields); ("PatternLineNode", PatternLineNode_fields);
   ("PatternLineNode.NoteColumns", PatternLineNode_NoteColumns_fields);
   ("PatternLineNoteColumnNode", PatternLineNoteColumnNode_fields); ("PatternSequence", PatternSequence_fields);
   ("PatternSequence.SequenceEntries", PatternSequence_SequenceEntries_fields);
   ("PatternSequenceEntry", PatternSequenceEntry_fields)].
Definition attributes_of (fs : list fdecl) : list string := map (fun f => fm_attr (fd_meta f)) fs.

(** ** Names: lines_per_beat is written as LinesPerBeat. *)
Definition upper (c : ascii) : ascii :=
  let n := nat_of_ascii c in if ((97 <=? n) && (n <=? 122))%nat then ascii_of_nat (n - 32) else c.
Fixpoint camel (capital : bool) (s : string) : string :=
  match s with
  | EmptyString => ""
  | String "_" r => camel true r
  | String c r => String (if capital then upper c else c) (camel false r)
  end.
Definition element_name (a : string) : string :=
  if String.eqb a "midi_ccdevice" then "MidiCCDevice" else if String.eqb a "xypad_device" then "XYPadDevice"
  else camel true a.
(** These three are XML attributes; all others are elements. *)
Definition xml_attributes : list string := ["doc_version"; "index"; "type"].

(** ** Constructors *)
(** Attributes with a fixed value, which the constructor does not take. *)
Definition preset (c : string) : list (string * pyval) :=
  if String.eqb c "RenoiseSong" then [("doc_version", VInt 65)]
  else if existsb (String.eqb c) ["SequencerTrack"; "SequencerMasterTrack"; "SequencerSendTrack"; "PatternTrack";
    "PatternMasterTrack"; "PatternSendTrack"; "TrackMixerDevice"; "MasterTrackMixerDevice"; "SendTrackMixerDevice"]
  then [("type", VStr c)]
  else [].
(** Classes that only hold lists of elements. *)
Definition holder (c : string) : bool := existsb (String.eqb c)
  ["GlobalSongData.ShuffleAmounts"; "RenoiseSong.Instruments"; "RenoiseSong.Tracks"; "TrackFilterDeviceChain.Devices";
   "PatternPool.Patterns"; "Pattern.Tracks"; "PatternTrack.Lines"; "PatternLineNode.NoteColumns";
   "PatternSequence.SequenceEntries"].
Fixpoint given_for (a : string) (l : list (string * pyval)) : option pyval :=
  match l with [] => None | (b, v) :: r => if String.eqb b a then Some v else given_for a r end.
(** The value of an attribute that is not given. *)
Definition unset (c a : string) : pyval :=
  match given_for a (preset c) with
  | Some v => v
  | None => if holder c && negb (existsb (String.eqb a) xml_attributes) then VList [] else VNone
  end.
Definition takes (c : string) (fs : list fdecl) : list string :=
  filter (fun a => match given_for a (preset c) with Some _ => false | None => true end) (attributes_of fs).

(** ** Instances *)
Definition holds (l : list (fmeta * pyval)) (a : string) : option pyval :=
  option_map snd (find (fun mv => String.eqb (fm_attr (fst mv)) a) l).
Inductive scalar : pyval -> Prop :=
| scalar_int n : scalar (VInt n) | scalar_flag b : scalar (VBool b) | scalar_text s : scalar (VStr s).
(** Values built from the song classes, numbers, flags, texts, lists and None. *)
Inductive made : pyval -> Prop :=
| made_none : made VNone
| made_scalar v : scalar v -> made v
| made_list l : (forall v, In v l -> made v) -> made (VList l)
| made_object c fs l :
    In (c, fs) song_classes -> map fst l = map fd_meta fs ->
    (forall a v, holds l a = Some v -> made v) ->
    (forall a v, holds l a = Some v -> In a xml_attributes -> v = VNone \/ scalar v) ->
    made (VObj l).

(** ** What is written *)
Inductive spelled : pyval -> string -> Prop :=
| spelled_int n t : int_value t = Some n -> spelled (VInt n) t
| spelled_flag b : spelled (VBool b) (if b then "true" else "false")
| spelled_text s : spelled (VStr s) s.
Definition named (t : string) (ks : list xml) : list xml := filter (fun k => String.eqb (tag k) t) ks.
(** [says t v xs]: the elements [xs], all called [t], tell the value [v]. *)
Inductive says (t : string) : pyval -> list xml -> Prop :=
| says_none : says t VNone []
| says_scalar v s : spelled v s -> says t v [Node t [] s []]
| says_list l parts : Forall2 (says t) l parts -> says t (VList l) (List.concat parts)
| says_object l ats ks :
    (* every element attribute's elements, in the order of the value *)
    (forall a v, holds l a = Some v -> ~ In a xml_attributes -> says (element_name a) v (named (element_name a) ks)) ->
    (* no other element *)
    (forall k, In k ks -> exists a v, holds l a = Some v /\ ~ In a xml_attributes /\ tag k = element_name a) ->
    (* elements in the order of the declarations, but for the devices, which take turns *)
    (holds l "xypad_device" = None ->
     ks = List.concat (map (fun a => if existsb (String.eqb a) xml_attributes then [] else named (element_name a) ks)
                           (map (fun mv => fm_attr (fst mv)) l))) ->
    (* the XML attributes *)
    (forall a, In a xml_attributes ->
       match holds l a with
       | None | Some VNone => ~ In a (map fst ats)
       | Some v => exists s, spelled v s /\ filter (fun p => String.eqb (fst p) a) ats = [(a, s)]
       end) ->
    (forall p, In p ats -> In (fst p) xml_attributes) ->
    says t (VObj l) [Node t ats "" ks].
