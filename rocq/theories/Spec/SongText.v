(** The free texts of a song: everything in it that is not a number, a flag or fixed. *)
From Coq Require Import ZArith List String.
From Verif.Model Require Import Song.
Import ListNotations.
Open Scope list_scope.

Definition given (o : option string) : list string := match o with Some t => [t] | None => [] end.
Definition line_strings (l : line) : list string := l_note l :: given (l_instrument l) ++ given (l_pan l).
Definition song_strings (s : song) : list string :=
  [g_song_name (sg_globals s); g_artist (sg_globals s)]
  ++ flat_map (fun t => [t_name t; t_state t])
       (ts_tracks (sg_tracks s) ++ ts_master (sg_tracks s) ++ ts_send (sg_tracks s))
  ++ flat_map (fun p => flat_map (fun t : ptrack => flat_map (fun il => line_strings (snd il)) t) (p_tracks p))
       (pp_patterns (sg_pool s)).
