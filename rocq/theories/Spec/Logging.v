(** What loggers and thrifty drivers do to a performance: registers that already
    hold a value are not written again, registers without sound are written, writes
    come in another order or at another time between key events, rests are split and
    joined. *)
From Coq Require Import ZArith List Bool.
From Verif.Model Require Import History.
From Verif.Spec Require Import Ym2151 View.
Import ListNotations.
Open Scope Z_scope.
Open Scope list_scope.

(** Registers of timers, test bits, the LFO reset and the outputs CT1/CT2 below the channels. *)
Definition unheard (r : Z) : Prop := 0 <= r < 0x20 /\ ~ In r [0x08; 0x0F; 0x18; 0x19; 0x1B].

(** The parts of a register that the extractor's sound, pitch and panning consist of
    (D2R of 0xC0 without its top bit, as in Spec/Ym2151.v). *)
Definition heard_bits (r v : Z) : list Z :=
  if r =? 0x08 then [bits v 6 3; bits v 2 0]
  else if r =? 0x0F then [bits v 7 7; bits v 4 0]
  else if r =? 0x18 then [v]
  else if r =? 0x19 then [bits v 7 7; bits v 6 0]
  else if r =? 0x1B then [bits v 1 0]
  else if r <? 0x20 then []
  else if r <? 0x28 then [bits v 7 7; bits v 6 6; bits v 5 3; bits v 2 0]
  else if r <? 0x30 then [bits v 6 4; bits v 3 0]
  else if r <? 0x38 then [bits v 7 2]
  else if r <? 0x40 then [bits v 6 4; bits v 1 0]
  else if r <? 0x60 then [bits v 6 4; bits v 3 0]
  else if r <? 0x80 then [bits v 6 0]
  else if r <? 0xA0 then [bits v 7 6; bits v 4 0]
  else if r <? 0xC0 then [bits v 7 7; bits v 4 0]
  else if r <? 0xE0 then [bits v 7 6; bits v 3 0]
  else if r <? 0x100 then [bits v 7 4; bits v 3 0]
  else [].
Definition sounds_alike (c c' : call) : Prop :=
  match c, c' with
  | Apply r v, Apply r' v' => r = r' /\ heard_bits r v = heard_bits r v'
  | Beat n, Beat n' => n = n'
  | _, _ => False
  end.

(** The calls [a] are logged as [l] when the chip has seen [q] before. *)
Inductive logged : history -> history -> history -> Prop :=
| log_end q : logged q [] []
| log_same q c c' a l : sounds_alike c c' -> logged (q ++ [c']) a l -> logged q (c :: a) (c' :: l)
| log_omitted q r v a l : r <> 0x08 -> holds q r v -> logged q a l -> logged q (Apply r v :: a) l
| log_repeated q r v a l : r <> 0x08 -> holds q r v -> logged (q ++ [Apply r v]) a l -> logged q a (Apply r v :: l)
| log_unheard q r v a l : unheard r -> logged (q ++ [Apply r v]) a l -> logged q a (Apply r v :: l)
(* anywhere in what is still to come: *)
| log_no_rest q g a l : logged q (g ++ a) l -> logged q (g ++ Beat 0 :: a) l
| log_split q g n m a l : logged q (g ++ Beat n :: Beat m :: a) l -> logged q (g ++ Beat (n + m) :: a) l
| log_joined q g n m a l : logged q (g ++ Beat (n + m) :: a) l -> logged q (g ++ Beat n :: Beat m :: a) l
| log_exchanged q g r v r' v' a l : r <> 0x08 -> r' <> 0x08 -> r <> r' \/ (r = 0x19 /\ bit v 7 <> bit v' 7) ->
    logged q (g ++ Apply r' v' :: Apply r v :: a) l -> logged q (g ++ Apply r v :: Apply r' v' :: a) l
| log_later q g r v n a l : r <> 0x08 -> logged q (g ++ Beat n :: Apply r v :: a) l -> logged q (g ++ Apply r v :: Beat n :: a) l
| log_earlier q g r v n a l : r <> 0x08 -> logged q (g ++ Apply r v :: Beat n :: a) l -> logged q (g ++ Beat n :: Apply r v :: a) l.

(** A driver with a copy of the registers omits writes of what the chip holds. *)
Definition already (q : history) (r v : Z) : bool :=
  if r =? 0x19 then depth (bit v 7) q =? bits v 6 0 else reg q r =? v.
Fixpoint thrifty (q h : history) : history :=
  match h with
  | [] => []
  | Apply r v :: a =>
      if negb (r =? 0x08) && already q r v then thrifty q a else Apply r v :: thrifty (q ++ [Apply r v]) a
  | c :: a => c :: thrifty (q ++ [c]) a
  end.
