(** C91: what the two spellings of a note event tell, and when they fail. *)
From Coq Require Import Lia ZifyBool.
From Verif.Model Require Import Py PyFloat Config Note.
From Verif.Spec Require Import Ranges Text Tracker Sheet JsonText.
From Verif.Proofs Require Import PyLemmas TextProofs GridProofs CsvProofs JsonProofs.
Open Scope Z_scope.

(** str.xrns_note(): which of the three outcomes, for any integers whatsoever. *)
Theorem C91_song_name n :
  (n_config_id n < 0 -> xrns_note n = Ok "Off"%string)
  /\ (0 <= n_config_id n -> ~ 0 <= n_note n < 16 -> xrns_note n = Err KeyError)
  /\ (0 <= n_config_id n -> 0 <= n_note n < 16 ->
      exists name, xrns_note n
        = Ok (name ++ str_int (if (n_note n =? 14)%Z then (n_octave n + 1)%Z else n_octave n))%string
        /\ String.length name = 2%nat).
Proof.
  unfold xrns_note, lookup. repeat apply conj; intros.
  - destruct (Z.ltb_spec (n_config_id n) 0); [reflexivity|lia].
  - destruct (Z.ltb_spec (n_config_id n) 0); [lia|].
    destruct (Z.ltb_spec (n_note n) 0); [reflexivity|].
    rewrite (proj2 (nth_error_None _ _)) by (cbn; lia). reflexivity.
  - destruct (Z.ltb_spec (n_config_id n) 0); [lia|].
    destruct (Z.ltb_spec (n_note n) 0); [lia|].
    rewrite (nth_error_nth' _ ""%string) by (cbn; lia). cbn [bind].
    eexists; split; [reflexivity|].
    assert (K : exists k, (k < 16)%nat /\ Z.to_nat (n_note n) = k) by (eexists; split; [|reflexivity]; lia).
    destruct K as (k & Hk & ->).
    do 16 (destruct k as [|k]; [reflexivity|]). lia.
Qed.
Print Assumptions C91_song_name.

(** str(note) fails the same way; a released key is spelled whatever else the event holds. *)
Theorem C91_sheet_name n :
  (n_config_id n < 0 -> note_str n = Ok "Key Off"%string)
  /\ (0 <= n_config_id n -> ~ 0 <= n_note n < 16 -> note_str n = Err KeyError)
  /\ (0 <= n_config_id n -> 0 <= n_note n < 16 -> n_key_fraction n < 64 -> exists t, note_str n = Ok t).
Proof.
  unfold note_str, lookup. repeat apply conj; intros.
  - destruct (Z.ltb_spec (n_config_id n) 0); [reflexivity|lia].
  - destruct (Z.ltb_spec (n_config_id n) 0); [lia|].
    destruct (Z.ltb_spec (n_note n) 0); [reflexivity|].
    rewrite (proj2 (nth_error_None _ _)) by (cbn; lia). reflexivity.
  - destruct (Z.ltb_spec (n_config_id n) 0); [lia|].
    destruct (Z.ltb_spec (n_note n) 0); [lia|].
    rewrite (nth_error_nth' _ ""%string) by (cbn; lia). cbn [bind].
    destruct (Z.ltb_spec 1 (n_key_fraction n)); [|eexists; reflexivity].
    pose proof (note_str_text (mknote 0 true true 0 0 (n_key_fraction n) 0)) as T.
    unfold note_str in T. cbn [n_config_id n_note n_key_fraction n_right n_left n_octave n_sample] in T.
    replace (1 <? n_key_fraction n) with true in T by lia.
    assert (R : note_in_range (mknote 0 true true 0 0 (n_key_fraction n) 0)).
    { unfold note_in_range, width; cbn [n_config_id n_note n_key_fraction n_right n_left n_octave n_sample]; lia. }
    specialize (T R). change (0 <? 0) with false in T. cbn [lookup bind] in T.
    change (lookup note_lookup 0) with (Ok "C#"%string) in T. cbn [bind] in T.
    destruct (kf_text (n_key_fraction n)) as [t|e]; [|discriminate T].
    cbn [bind]. eexists; reflexivity.
Qed.
Print Assumptions C91_sheet_name.

(** ** What the spelling in the sheet tells. *)
Fixpoint absent (c : ascii) (s : string) : Prop :=
  match s with EmptyString => True | String x r => x <> c /\ absent c r end.
Lemma absent_app c a b : absent c a -> absent c b -> absent c (a ++ b)%string.
Proof. induction a as [|x a IH]; cbn; [tauto|]. intros (? & ?) ?. tauto. Qed.
Lemma split_first c : forall a b x y, absent c a -> absent c b ->
  (a ++ String c x)%string = (b ++ String c y)%string -> a = b /\ x = y.
Proof.
  induction a as [|p a IH]; intros [|q b] x y A B; cbn; intro E.
  - injection E as ->. auto.
  - injection E as E1 E2. cbn in B. exfalso. destruct B as (B & _). congruence.
  - injection E as E1 E2. cbn in A. exfalso. destruct A as (A & _). congruence.
  - injection E as -> E. cbn in A, B. destruct (IH b x y (proj2 A) (proj2 B) E) as (-> & ->). auto.
Qed.
Lemma split_len : forall a b x y, String.length a = String.length b ->
  (a ++ x)%string = (b ++ y)%string -> a = b /\ x = y.
Proof.
  induction a as [|p a IH]; intros [|q b] x y L E; try discriminate L; [auto|].
  cbn in E. injection E as -> E. injection L as L. destruct (IH b x y L E) as (-> & ->). auto.
Qed.

Lemma ok_inj {A} (a b : A) : Ok a = Ok b -> a = b.
Proof. congruence. Qed.
Lemma absent_number c s : number_char c = false -> all_number s = true -> absent c s.
Proof.
  intro C. induction s as [|x s IH]; cbn [all_number absent]; [auto|].
  intro H. apply andb_true_iff in H as (H & K). split; [intros ->; congruence|auto].
Qed.
Lemma number_fine kf : all_number (fine kf) = true.
Proof.
  unfold fine. destruct (kf <=? 1); [reflexivity|].
  destruct (_ <? 10); cbn [append all_number]; rewrite all_number_int; reflexivity.
Qed.
Definition unfine (s : string) : Z :=
  hd 0 (filter (fun k => String.eqb (fine k) s) (map Z.of_nat (seq 1 63))).
Lemma unfine_fine kf : width 6 kf -> unfine (fine kf) = Z.max kf 1.
Proof.
  unfold width. intro H. apply Z.eqb_eq.
  apply (sweep 64 (fun kf => unfine (fine kf) =? Z.max kf 1)); [vm_compute; reflexivity|lia].
Qed.
Lemma name_length k : 0 <= k < 16 -> String.length (nth (Z.to_nat k) code_names ""%string) = 2%nat.
Proof.
  intro H. apply Nat.eqb_eq.
  apply (sweep 16 (fun k => Nat.eqb (String.length (nth (Z.to_nat k) code_names ""%string)) 2)); [reflexivity|lia].
Qed.
Definition unname (s : string) : Z :=
  hd 0 (filter (fun k => String.eqb (nth (Z.to_nat k) code_names ""%string) s) (map Z.of_nat (seq 0 16))).
Lemma unname_name k : 0 <= k < 16 -> unname (nth (Z.to_nat k) code_names ""%string) = k.
Proof.
  intro H. apply Z.eqb_eq.
  apply (sweep 16 (fun k => unname (nth (Z.to_nat k) code_names ""%string) =? k)); [reflexivity|lia].
Qed.
Lemma octave_length o : 0 <= o < 8 -> String.length (str_int o) = 1%nat.
Proof.
  intro H. apply Nat.eqb_eq.
  apply (sweep 8 (fun o => Nat.eqb (String.length (str_int o)) 1)); [reflexivity|lia].
Qed.

(** Of two events of the chip's range: the same text in the sheet exactly if both release the
    key, or both press it with the same instrument, octave, note code, output sides (neither
    side counts as left) and fine tuning (0 and 1 count as one). In particular the instrument
    and the pitch can be read off the sheet without ambiguity. *)
Definition sides (n : note) : Z := if n_right n then (if n_left n then 2 else 1) else 0.
Theorem C91_sheet_tells n m : note_in_range n -> note_in_range m ->
  (note_str n = note_str m <->
   (n_config_id n < 0 /\ n_config_id m < 0)
   \/ (0 <= n_config_id n /\ n_config_id n = n_config_id m /\ n_octave n = n_octave m
       /\ n_note n = n_note m /\ sides n = sides m
       /\ Z.max 1 (n_key_fraction n) = Z.max 1 (n_key_fraction m))).
Proof.
  intros Rn Rm. rewrite (note_str_text _ Rn), (note_str_text _ Rm).
  destruct Rn as (An & On & Kn & Fn & _), Rm as (Am & Om & Km & Fm & _).
  unfold event_text, is_off. unfold width in *.
  change (2 ^ 3) with 8 in *. change (2 ^ 4) with 16 in *.
  destruct (Z.ltb_spec (n_config_id n) 0) as [Hn|Hn], (Z.ltb_spec (n_config_id m) 0) as [Hm|Hm].
  - split; [intros _; left; auto|reflexivity].
  - split; [|intros [?|?]; lia]. intro E. exfalso. apply ok_inj in E.
    pose proof (name_length _ Km) as L.
    destruct (nth (Z.to_nat (n_note m)) code_names ""%string) as [|a [|b [|c t]]]; try discriminate L.
    cbn [append] in E. discriminate E.
  - split; [|intros [?|?]; lia]. intro E. exfalso. apply ok_inj in E.
    pose proof (name_length _ Kn) as L.
    destruct (nth (Z.to_nat (n_note n)) code_names ""%string) as [|a [|b [|c t]]]; try discriminate L.
    cbn [append] in E. discriminate E.
  - split.
    + intro E. right. apply ok_inj in E.
      apply split_len in E as (E1 & E); [|rewrite !name_length by assumption; reflexivity].
      cbn [append] in E. injection E as E.
      apply split_len in E as (E2 & E); [|rewrite !octave_length by assumption; reflexivity].
      apply (split_first " ") in E as (E3 & E);
        [|apply absent_number; [reflexivity|apply number_fine]..].
      injection E as E.
      apply (split_first "]") in E as (E4 & E);
        [|apply absent_number; [reflexivity|apply all_number_int]..].
      injection E as E.
      apply str_int_inj in E2, E4. apply (f_equal unname) in E1. rewrite !unname_name in E1 by assumption.
      apply (f_equal unfine) in E3. rewrite !unfine_fine in E3 by assumption.
      repeat apply conj; try assumption; [|lia].
      unfold sides, side in *. destruct (n_right n), (n_left n), (n_right m), (n_left m); auto; discriminate E.
    + intros [?|(_ & Ec & Eo & Ek & Es & Ef)]; [lia|]. rewrite Ec, Eo, Ek.
      assert (F : fine (n_key_fraction n) = fine (n_key_fraction m)).
      { unfold fine. destruct (Z.leb_spec (n_key_fraction n) 1), (Z.leb_spec (n_key_fraction m) 1); try lia; [reflexivity|].
        replace (n_key_fraction n) with (n_key_fraction m) by lia. reflexivity. }
      rewrite F.
      assert (S : side (n_right n) (n_left n) = side (n_right m) (n_left m)).
      { unfold sides, side in *. destruct (n_right n), (n_left n), (n_right m), (n_left m); auto; discriminate Es. }
      rewrite S. reflexivity.
Qed.
Print Assumptions C91_sheet_tells.

(** The song's names tell less: C# and the invalid code 15 share a name, key fractions and
    instruments are not part of it. Of two pressed notes of the range, equal names mean the
    same octave and semitone as shown, and for valid codes the same octave and code. *)
Definition valid_code (k : Z) : bool := negb (k mod 4 =? 3).
Lemma xname_length k : 0 <= k < 16 -> String.length (nth (Z.to_nat k) note_lookup_xrns ""%string) = 2%nat.
Proof.
  intro H. apply Nat.eqb_eq.
  apply (sweep 16 (fun k => Nat.eqb (String.length (nth (Z.to_nat k) note_lookup_xrns ""%string)) 2)); [reflexivity|lia].
Qed.
Definition unxname (s : string) : Z :=
  hd 0 (filter (fun k => valid_code k && String.eqb (nth (Z.to_nat k) note_lookup_xrns ""%string) s) (map Z.of_nat (seq 0 16))).
Lemma unxname_name k : 0 <= k < 16 -> valid_code k = true -> unxname (nth (Z.to_nat k) note_lookup_xrns ""%string) = k.
Proof.
  intros H V. apply Z.eqb_eq.
  pose proof (sweep 16 (fun k => negb (valid_code k) || (unxname (nth (Z.to_nat k) note_lookup_xrns ""%string) =? k)) eq_refl k) as S.
  cbv beta in S. rewrite V in S. apply S. lia.
Qed.
Theorem C91_song_tells n m :
  0 <= n_config_id n -> 0 <= n_config_id m ->
  0 <= n_note n < 16 -> 0 <= n_note m < 16 ->
  valid_code (n_note n) = true -> valid_code (n_note m) = true ->
  (xrns_note n = xrns_note m <-> n_octave n = n_octave m /\ n_note n = n_note m).
Proof.
  intros Cn Cm Kn Km Vn Vm. unfold xrns_note, lookup.
  destruct (Z.ltb_spec (n_config_id n) 0); [lia|]. destruct (Z.ltb_spec (n_config_id m) 0); [lia|].
  destruct (Z.ltb_spec (n_note n) 0); [lia|]. destruct (Z.ltb_spec (n_note m) 0); [lia|].
  rewrite !(nth_error_nth' note_lookup_xrns ""%string) by (cbn; lia). cbn [bind].
  split.
  - intro E. apply ok_inj in E.
    apply split_len in E as (E1 & E); [|rewrite !xname_length by assumption; reflexivity].
    apply str_int_inj in E. apply (f_equal unxname) in E1. rewrite !unxname_name in E1 by assumption.
    rewrite E1 in E. split; [|assumption]. destruct (n_note m =? 14); lia.
  - intros (-> & ->). reflexivity.
Qed.
Print Assumptions C91_song_tells.

(** Cases. *)
Example C91_case_fine : note_str (mknote 12 true false 4 10 0 77) = Ok "A -4 [12] Pan R"%string
  /\ note_str (mknote 12 true false 4 10 1 99) = Ok "A -4 [12] Pan R"%string
  /\ note_str (mknote 12 true false 4 10 5 99) = Ok "A -4-08 [12] Pan R"%string
  /\ note_str (mknote 12 true true 4 10 63 99) = Ok "A -4-101 [12] "%string.
Proof. repeat split. Qed.
Example C91_case_range : note_in_range (mknote 12 true false 4 10 63 99).
Proof. unfold note_in_range, width; cbn; lia. Qed.
Example C91_case_fails : xrns_note (mknote 0 true true 4 16 0 0) = Err KeyError
  /\ xrns_note (mknote (-1) true true 4 16 0 0) = Ok "Off"%string
  /\ note_str (mknote 3 true true 4 (-1) 0 0) = Err KeyError.
Proof. repeat split. Qed.
(** Invalid codes share the name of a valid one. *)
Example C91_case_shared : xrns_note (mknote 0 true true 4 2 0 0) = xrns_note (mknote 0 true true 4 3 0 0).
Proof. reflexivity. Qed.
