(** The text of Song.xml: writer.py:17-23, serializer.render(xml_song) with
    SerializerConfig(pretty_print=True, encoding="UTF-8", xml_version="1.0").
    xsdata (21.4) is not part of the repository: modelled here is its event writer
    without lxml, XmlEventWriter, i.e. the standard library's XMLGenerator (with
    short empty elements) and a line break with two blanks per level before each
    start tag and before an end tag that follows a child.  Strings are sequences of
    characters (before UTF-8 encoding); the zip container is in Zip.v. *)
From Verif.Model Require Import Py Song Dataclass Dao Serializer Document.
Open Scope string_scope.
Definition newline : string := String (ascii_of_nat 10) "".


(** xml.sax.saxutils.escape: the three replacements, one after the other, amount to
    one replacement per character since the later two find nothing new. *)
Fixpoint escape (s : string) : string :=
  match s with
  | EmptyString => ""
  | String c r =>
      (if Ascii.eqb c "&" then "&amp;" else if Ascii.eqb c ">" then "&gt;"
       else if Ascii.eqb c "<" then "&lt;" else String c "") ++ escape r
  end.
(** quoteattr. *)
Fixpoint has_char (d : ascii) (s : string) : bool :=
  match s with EmptyString => false | String c r => Ascii.eqb c d || has_char d r end.
Fixpoint replace_char (d : ascii) (by_ : string) (s : string) : string :=
  match s with
  | EmptyString => ""
  | String c r => (if Ascii.eqb c d then by_ else String c "") ++ replace_char d by_ r
  end.
Definition quote : ascii := """".
Definition quoteattr (s : string) : string :=
  let data := replace_char "009" "&#9;" (replace_char "013" "&#13;" (replace_char "010" "&#10;" (escape s))) in
  if has_char quote data then
    if has_char "'" data then String quote (replace_char quote "&quot;" data ++ String quote "")
    else "'" ++ data ++ "'"
  else String quote (data ++ String quote "").

(** XMLGenerator.startElementNS: the start tag without its end. *)
Definition attributes_text (l : list (string * string)) : string :=
  String.concat "" (map (fun a => " " ++ fst a ++ "=" ++ quoteattr (snd a)) l).
Fixpoint blanks (level : nat) : string := match level with O => "" | S k => "  " ++ blanks k end.

(** One element at the given level. *)
Fixpoint element_text (level : nat) (x : xml) {struct x} : string :=
  match x with
  | Node tag attrs text kids =>
      "<" ++ tag ++ attributes_text attrs ++
      match text, kids with
      | EmptyString, [] => "/>"
      | _, _ =>
          ">" ++ escape text ++
          (fix each (l : list xml) : string :=
             match l with
             | [] => ""
             | k :: r => newline ++ blanks (S level) ++ element_text (S level) k ++ each r
             end) kids ++
          match kids with [] => "" | _ => newline ++ blanks level end ++
          "</" ++ tag ++ ">"
      end
  end.
Definition declaration : string := "<?xml version=""1.0"" encoding=""UTF-8""?>".
Definition document_text (x : xml) : string := declaration ++ newline ++ element_text 0 x ++ newline.

(** What is handed to zf.writestr, writer.py:20-23. *)
Definition song_text (s : song) : res string :=
  let! x := song_xml s in Ok (document_text x).
