(** * A concrete environment, used only to show that hypotheses can be met and
    to compute the witnesses of the refutations. *)
From Verif Require Import PyStr Regex Note PyLib Utils FieldAttrs Types.
Open Scope N_scope.

(** A toy urlsplit: no scheme, no host. *)
Definition toy_split (s : str) : urlparts :=
  match split1 35 s with
  | Some (a, b) => mkUrl [] [] a [] b
  | None => mkUrl [] [] s [] []
  end.
Definition toy_unsplit (p : urlparts) : str :=
  u_path p ++ match u_frag p with [] => [] | f => 35 :: f end.
Definition env0 : env :=
  mkEnv (fun s => SFOk (BStr s, []) [])
        (fun s => SFOk [MItem (BTok s) []] [])
        (fun s => SFOk [(s, MItem (BBool true) [])] [])
        (fun _ => JErr (u "Expecting value"))
        (fun s => Ok (toy_split s))
        (fun a b => Ok (a ++ b))
        (fun s _ => s) (fun s => s) toy_unsplit
        (fun s => Ok s)
        (fun b => b)
        (fun s => if str_eqb s (u "utf-8") then Ok (u "utf-8") else Err ELookup)
        (fun _ b => Ok b)
        (fun _ => (Some (u "utf-8"), 1%Q))
        (fun _ s => Some s)
        (fun _ => 0)
        (fun s => Some s)
        (fun b => b)
        (fun _ => u "1.0")
        (fun _ _ => u "now")
        (fun _ => u "repr")
        (fun b => b)
        (fun _ b => inl (b, []))
        (fun _ b => inl b).

(** The same with other results for some functions. *)
Definition env_with (sfl : str -> sfres (list member)) (js : str -> jsres) (split : str -> res urlparts)
    (codec : str -> res str) (dec : str -> bytes -> res str) : env :=
  mkEnv (e_sf_item env0) sfl (e_sf_dict env0) js split (e_urljoin env0) (e_quote env0) (e_unquote env0)
        (e_unsplit env0) (e_idna env0) (e_utf8 env0) codec dec (e_chardet env0) (e_sniff env0) (e_rank env0)
        (e_b64 env0) (e_md5 env0) (e_float_str env0) (e_reltime env0) (e_repr env0) (e_display env0)
        (e_inflate env0) (e_brotli env0).
