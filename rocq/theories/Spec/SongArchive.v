(** Song files: which clocks a zip archive can carry, and the song in a file. *)
From Coq Require Import ZArith List Bool String.
From Verif.Model Require Import Zip Dataclass Serializer.
From Verif.Spec Require Import VgmFormat ZipReader XmlReader SongFile.
Import ListNotations.
Open Scope Z_scope.

(** A local time as the operating system gives it. *)
Definition clock_ok (t : clock) : Prop :=
  1 <= month t <= 12 /\ 1 <= day t <= 31 /\ 0 <= hour t <= 23 /\ 0 <= minute t <= 59 /\ 0 <= second t <= 61.
(** The years of the zip format. *)
Definition zip_clock (t : clock) : Prop := clock_ok t /\ 1980 <= year t <= 2107.

(** The song in a song file: the member Song.xml, as text, as XML, as a song. *)
Definition song_in (d : list Z) : option x_song :=
  match song_entry d with
  | Some b => match decode b with
              | Some txt => match read_xml txt with Some x => read_song x | None => None end
              | None => None
              end
  | None => None
  end.
