(** * The release version: /repo/version.py. *)
From Verif Require Export SemVer.

(** [str.strip()] without arguments removes these (Python 3.6 [str.isspace]) *)
Definition is_white (c : Z) : bool :=
  ((9 <=? c) && (c <=? 13)) || ((28 <=? c) && (c <=? 32)) || (c =? 133) || (c =? 160) || (c =? 5760)
  || ((8192 <=? c) && (c <=? 8202)) || (c =? 8232) || (c =? 8233) || (c =? 8239) || (c =? 8287) || (c =? 12288).
(** version.py 42-74: the outputs of the two git commands are arguments.  Not
    modelled: the commands themselves ([check=True] raises when one fails). *)
Definition call_git_describe (prefix version last_tag : ustr) : result ustr :=
  if existsb (Z.eqb 32) prefix then Err EAssertionError else
  if negb (is_prefix prefix (strip is_white version)) then Err EAssertionError else
  if negb (is_prefix prefix (strip is_white last_tag)) then Err EAssertionError else
  let version := skipn (List.length prefix) (strip is_white version) in
  let last_tag := skipn (List.length prefix) (strip is_white last_tag) in
  if negb (is_prefix last_tag version) then Err EAssertionError else
  if negb (ustr_eqb version last_tag)
  then Ok (last_tag ++ u "+dev" ++ map (fun c => if c =? 45 then 46 else c) (skipn (List.length last_tag + 1) version))
  else Ok version.
(** version.py 77-97: [file] is the text of RELEASE-VERSION, [None] when there is no
    such file; the result is its text afterwards and the value returned.  The test
    for [None] at line 90 is left out, as call_git_describe returns a text. *)
Definition get_version (prefix version last_tag : ustr) (no_update : bool) (file : option ustr)
  : option ustr * result ustr :=
  match call_git_describe prefix version last_tag with
  | Err e => (file, Err e)
  | Ok v =>
      if no_update then (file, Ok v) else
      if negb (match file with Some r => ustr_eqb v r | None => false end) then (Some v, Ok v) else (file, Ok v)
  end.
