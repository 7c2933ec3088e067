(** * Translated notes: i18n.py and the catalogues shipped in translations/. *)
From Verif Require Import PyStr NoteTable Note Cat_es Cat_fr Cat_ja Cat_zh.
From Coq Require Import String.
Open Scope N_scope.

Definition catalogue := list (string * string).
(** The code points of UTF-8 text (the catalogues are UTF-8; the decoder of
    gettext.GNUTranslations is Python's).  Text that is not UTF-8 is cut: no
    catalogue has any ([catalogues_utf8] in PropLocale.v). *)
Fixpoint utf8_points (fuel : nat) (b : bytes) : str :=
  match fuel, b with
  | S f, c :: r =>
      if c <? 128 then c :: utf8_points f r
      else match r with
           | d :: r1 =>
               if c <? 224 then ((c - 192) * 64 + (d - 128)) :: utf8_points f r1
               else match r1 with
                    | x :: r2 =>
                        if c <? 240 then ((c - 224) * 4096 + (d - 128) * 64 + (x - 128)) :: utf8_points f r2
                        else match r2 with
                             | y :: r3 => ((c - 240) * 262144 + (d - 128) * 4096 + (x - 128) * 64 + (y - 128)) :: utf8_points f r3
                             | [] => []
                             end
                    | [] => []
                    end
           | [] => []
           end
  | _, _ => []
  end.
Definition utf8 (s : string) : str := utf8_points (String.length s) (u s).
(** [gettext.GNUTranslations.gettext]: the catalogue's text, or the message itself.
    The empty message is a key like any other: its text is the catalogue's header. *)
Fixpoint lookup (c : catalogue) (m : string) : option string :=
  match c with
  | [] => None
  | (a, b) :: c' => if String.eqb a m then Some b else lookup c' m
  end.
(** i18n.py:28-43 [get_translations], [translate]; [None]: a locale without a catalogue,
    as is the default "en" (i18n.py:13), for which Translations.load gives NullTranslations. *)
Definition translate (c : option catalogue) (m : string) : str :=
  match c with
  | None => u m
  | Some c => match lookup c m with Some t => utf8 t | None => u m end
  end.
(** The locales shipped in httplint/translations. *)
Definition shipped : list (string * catalogue) :=
  [("es"%string, Cat_es.catalogue); ("fr"%string, Cat_fr.catalogue); ("ja"%string, Cat_ja.catalogue); ("zh"%string, Cat_zh.catalogue)].
(** i18n.py:28-33 for the locale name [l] as given to [set_locale] (i18n.py:17-26).
    Simplified: gettext.find also tries the language part of a name such as "es_MX". *)
Definition locale (l : string) : option catalogue :=
  match find (fun x => String.eqb (fst x) l) shipped with Some x => Some (snd x) | None => None end.

(** note.py:127-134 [_get_summary] in a locale; [summary] in Note.v is the case without a catalogue. *)
Definition tmpl_str (s : str) : option (list seg) := parse_tmpl (S (List.length s)) s [].
Definition format_str (conv : pyval -> res str) (t : str) (vs : vars) : res str :=
  match tmpl_str t with None => Err EValue | Some l => fill conv vs l end.
Definition summary_in (e : env) (c : option catalogue) (cls : nid) (vs : vars) : res str :=
  format_str (py_str e) (translate c (nid_summary cls)) vs.
(** note.py:136-160 [_get_detail] in a locale, up to the call of the Markdown renderer. *)
Definition detail_in (e : env) (c : option catalogue) (cls : nid) (vs : vars) : res str :=
  rbind (coerce_all e vs) (fun safe => format_str (py_str e) (translate c (nid_text cls)) safe).
