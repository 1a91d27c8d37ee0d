(** * Properties C10, C11, C12, C26, C27: paths and hex escapes. *)
From Verif Require Import Node Spec BaseFacts PathFacts CollapseFacts DecodeFacts PathProofs PathJoin.

(** C10: the collapsed text of "/c1/../cn" is the text of the directory reached by
    walking c1..cn from the root. *)
Theorem C10_collapse_path : forall p rest out,
  path_ok p -> length (show p) < length out ->
  exists out', ush_utils_get_collapse_path (show p ++ NUL :: rest) out = Ok out' /\
    length out' = length out /\ c_str out' 0 = Ok (show (resolve [] p)).
Proof. exact C10_collapse_proof. Qed.
Print Assumptions C10_collapse_path.

(** C10: what walking yields is a normal form and never longer. *)
Theorem C10_normal_form : forall p, path_ok p ->
  let q := resolve [] p in
  path_ok q /\ Forall no_dots q /\ resolve [] q = q /\
  length (show q) <= length (show p).
Proof. exact C10_normal_proof. Qed.
Print Assumptions C10_normal_form.

(** C10 for every string, proper or not: never out of bounds if the output array is
    longer than the string, and an out-of-bounds write if it is not. *)
Theorem C10_collapse_every_string : forall s rest out, no_nul s -> 1 < length out ->
  (length s < length out ->
   exists out', ush_utils_get_collapse_path (s ++ NUL :: rest) out = Ok out' /\
     length out' = length out /\ c_str out' 0 = Ok (show (resolve [] (snd (text_comps s))))) /\
  (length out <= length s ->
   ush_utils_get_collapse_path (s ++ NUL :: rest) out = Err EOob).
Proof. exact C10_all_proof. Qed.
Print Assumptions C10_collapse_every_string.

Example C10_example :
  path_ok [lit "a"; lit ".."; lit ".."; lit "b"; lit "."] /\
  show (resolve [] [lit "a"; lit ".."; lit ".."; lit "b"; lit "."]) = lit "/b".
Proof.
  split; [|reflexivity].
  repeat (constructor; [split; [discriminate|split; vm_compute; intuition discriminate]|]). constructor.
Qed.

(** C11: resolution of any typed text against the current directory. *)
Theorem C11_absolute_path : forall s nd cwd t,
  getp (hp s) (o_cur s) = Ok nd -> n_path nd = Some (show cwd) ->
  path_ok cwd -> no_nul t -> forall out,
  (length (full_text cwd t) < d_pathmax (o_desc s) -> length out = d_pathmax (o_desc s) ->
   exists out', ush_node_get_absolute_path (d_pathmax (o_desc s)) (hp s) (o_cur s) t out = Ok out' /\
     length out' = length out /\ c_str out' 0 = Ok (show (resolve_text cwd t))).
Proof. exact C11_proof. Qed.
Print Assumptions C11_absolute_path.

(** C11: what the resolution is for proper typed paths: "c1/../cn", with or without a
    trailing slash, walks from the current directory... *)
Theorem C11_relative : forall cwd p, path_ok cwd -> Forall no_dots cwd -> path_ok p -> p <> [] ->
  resolve_text cwd (typed p) = resolve cwd p /\ resolve_text cwd (typed p ++ [SL]) = resolve cwd p.
Proof. exact resolve_text_typed. Qed.
Print Assumptions C11_relative.

(** ... and "/c1/../cn" from the root, whatever the current directory. *)
Theorem C11_absolute : forall cwd p, path_ok p -> p <> [] ->
  resolve_text cwd (show p) = resolve [] p /\ resolve_text cwd (show p ++ [SL]) = resolve [] p.
Proof. exact resolve_text_absolute. Qed.
Print Assumptions C11_absolute.

Example C11_example :
  resolve_text [lit "dir"; lit "1"] (lit "../2/./x/") = [lit "dir"; lit "2"; lit "x"] /\
  typed [lit ".."; lit "2"; lit "."; lit "x"] = lit "../2/./x" /\
  resolve_text [lit "dir"; lit "1"] (lit "/data") = [lit "data"] /\
  resolve_text [lit "dir"; lit "1"] (lit "/") = [].
Proof. repeat split. Qed.

(** C12: the helpers on the text of a proper path. *)
Theorem C12_levels_count : forall p, path_ok p ->
  ush_utils_get_path_levels_count (show p) = length p.
Proof. exact levels_count_show. Qed.
Print Assumptions C12_levels_count.

Theorem C12_level_prefix : forall p k out, path_ok p -> k <= length p ->
  length (show (firstn k p)) < length out ->
  exists out', ush_utils_get_path_level k (show p) out = Ok out' /\ length out' = length out /\
    c_str out' 0 = Ok (show (firstn k p)).
Proof. exact C12_level_proof. Qed.
Print Assumptions C12_level_prefix.

Theorem C12_upper : forall p, path_ok p ->
  exists b, ush_utils_path_upper (show p ++ [NUL]) = Ok b /\
    c_str b 0 = Ok (match p with [] => [] | _ => show (removelast p) end).
Proof. exact path_upper_show. Qed.
Print Assumptions C12_upper.

Theorem C12_last : forall p, path_ok p ->
  ush_utils_path_last (show p) = match p with [] => [SL] | _ => last p [] end.
Proof. exact path_last_show. Qed.
Print Assumptions C12_last.

Theorem C12_join : forall p name out, path_ok p -> comp_ok name ->
  length (show (p ++ [name])) < length out ->
  exists out', ush_utils_join_path (show p) name out = Ok out' /\ length out' = length out /\
    c_str out' 0 = Ok (show (p ++ [name])).
Proof. exact C12_join_proof. Qed.
Print Assumptions C12_join.

(** C12: joining the upper path with the last part gives the path back. *)
Theorem C12_join_back : forall p out, path_ok p -> p <> [] -> length (show p) < length out ->
  exists b u out', ush_utils_path_upper (show p ++ [NUL]) = Ok b /\ c_str b 0 = Ok u /\
    ush_utils_join_path u (ush_utils_path_last (show p)) out = Ok out' /\
    length out' = length out /\ c_str out' 0 = Ok (show p).
Proof. exact C12_join_back_proof. Qed.
Print Assumptions C12_join_back.

Example C12_example :
  show [lit "dir"; lit "1"; lit "11"] = lit "/dir/1/11" /\
  path_ok [lit "dir"; lit "1"; lit "11"] /\
  show (removelast [lit "dir"; lit "1"; lit "11"]) = lit "/dir/1".
Proof.
  split; [reflexivity|]. split; [|reflexivity].
  repeat (constructor; [split; [discriminate|split; vm_compute; intuition discriminate]|]). constructor.
Qed.

(** C26, C27: decoding the string [s] that stands at [i] in memory [m] into the
    place [o] (the same place, before it, or behind the string). *)
Theorem C27_decode : forall s m i o max,
  no_nul s ->
  (forall j, j <= length s -> nth_error m (i + j) = nth_error (s ++ [NUL]) j) ->
  (o <= i \/ i + length s < o) ->
  let d := firstn max (decode s) in
  o + length d <= length m ->
  ush_utils_decode_ascii m i o max = Ok (stored m o d, length d).
Proof. exact decode_ascii_eq. Qed.
Print Assumptions C27_decode.

(** In place: bytes before the string, its rest and its terminator are untouched. *)
Theorem C27_decode_in_place : forall a s r max, no_nul s ->
  let d := firstn max (decode s) in
  ush_utils_decode_ascii (a ++ s ++ NUL :: r) (length a) (length a) max =
    Ok (a ++ d ++ skipn (length d) s ++ NUL :: r, length d).
Proof. exact decode_in_place. Qed.
Print Assumptions C27_decode_in_place.

Theorem C27_decode_shrinks : forall s, length (decode s) <= length s.
Proof. exact decode_length_le. Qed.
Print Assumptions C27_decode_shrinks.

Theorem C26_encode_decode : forall upper d, decode (encode upper d) = d /\ no_nul (encode upper d).
Proof. intros; split; [exact (decode_encode upper d)|exact (encode_no_nul upper d)]. Qed.
Print Assumptions C26_encode_decode.

Theorem C26_plain_text : forall s, ~ In BSL s -> decode s = s.
Proof. exact decode_plain. Qed.
Print Assumptions C26_plain_text.

Example C26_example :
  decode (lit "a\x00\xfF\\z") = [ "a"; "000"; "255"; "\"; "z"]%char /\
  ush_utils_decode_ascii (lit "ab\x41c" ++ [NUL]) 0 0 7 = Ok (lit "abAc41c" ++ [NUL], 4).
Proof. split; vm_compute; reflexivity. Qed.
