(** * Utils: model of src/src/ush_utils.c

    [const char *] parameters are string values ([bytes] without NUL); mutable
    [char *] parameters are buffers (byte arrays of fixed length) and the
    function returns the new contents. *)
From Verif Require Export Base.

(** ush_utils.c:31-43 [ush_utils_join_path]; [out] is the array [out_path] points to. *)
Definition ush_utils_join_path (in_path name : bytes) (out : bytes) : res bytes :=
  out <- c_strcpy out 0 in_path ;;
  s <- c_str out 0 ;;
  if beq s (lit "/") then c_strcat out 0 name
  else
    out <- c_strcat out 0 (lit "/") ;;
    c_strcat out 0 name.

(** ush_utils.c:136-141, the loop of [ush_utils_get_path_levels_count]: for the
    rest of the string [s] after the current character. *)
Fixpoint levels_loop (s : bytes) (count : nat) : nat :=
  match s with
  | [] => count
  | _ :: r =>
      levels_loop r (match r with c :: _ => if ceq c SL then S count else count
                                | [] => count end)
  end.

(** ush_utils.c:126-144 [ush_utils_get_path_levels_count] *)
Definition ush_utils_get_path_levels_count (path : bytes) : nat :=
  if beq path (lit "/") then 0
  else match path with
       | [] => 0
       | _ => levels_loop path 1
       end.

(** ush_utils.c:56-78, first loop of [ush_utils_get_collapse_path]: scan [b]
    from index [i], overwrite separators by NUL and collect in [nodes] the
    offsets where components start.  [state1] is [state == 1].  Storing past
    the variable-length array [nodes[levels]] is out of bounds. *)
Fixpoint collapse_scan (fuel : nat) (b : bytes) (i : nat) (state1 : bool)
         (levels : nat) (nodes : list nat) : res (bytes * list nat) :=
  match fuel with
  | 0 => Err EDiverge
  | S f =>
      ch <- rd b i ;;
      if negb state1 then
        if ceq ch NUL then Ok (b, nodes)
        else if ceq ch SL then
          b' <- wr b i NUL ;; collapse_scan f b' (S i) true levels nodes
        else collapse_scan f b (S i) false levels nodes
      else
        if length nodes <? levels then
          if ceq ch NUL then Ok (b, nodes ++ [i])
          else collapse_scan f b (S i) false levels (nodes ++ [i])
        else Err EOob
  end.

(** ush_utils.c:80-91, second loop: [nodes_out] with [count] entries. *)
Fixpoint collapse_fold (b : bytes) (nodes : list nat) (levels : nat)
         (nodes_out : list nat) : res (list nat) :=
  match nodes with
  | [] => Ok nodes_out
  | n :: rest =>
      s <- c_str b n ;;
      if beq s (lit "..") then collapse_fold b rest levels (removelast nodes_out)
      else if beq s (lit ".") then collapse_fold b rest levels nodes_out
      else if length nodes_out <? levels
           then collapse_fold b rest levels (nodes_out ++ [n])
           else Err EOob
  end.

(** ush_utils.c:99-102, third loop. *)
Fixpoint collapse_cat (b : bytes) (nodes_out : list nat) (out : bytes) : res bytes :=
  match nodes_out with
  | [] => Ok out
  | n :: rest =>
      out <- c_strcat out 0 (lit "/") ;;
      s <- c_str b n ;;
      out <- c_strcat out 0 s ;;
      collapse_cat b rest out
  end.

(** ush_utils.c:45-103 [ush_utils_get_collapse_path]; [b] is the array behind
    [in_path] (modified by the function, its final contents are not returned
    because every caller discards it), [out] the array behind [out_path]. *)
Definition ush_utils_get_collapse_path (b out : bytes) : res bytes :=
  s <- c_str b 0 ;;
  out <- c_strcpy out 0 s ;;
  if beq s (lit "/") then Ok out
  else
    let levels := ush_utils_get_path_levels_count s in
    '(b, nodes) <- collapse_scan (S (length b)) b 0 false levels [] ;;
    nodes_out <- collapse_fold b nodes levels [] ;;
    out <- wr out 0 NUL ;;
    match nodes_out with
    | [] => c_strcat out 0 (lit "/")
    | _ => collapse_cat b nodes_out out
    end.

(** ush_utils.c:115-123, the loop of [ush_utils_get_path_level]: [o] is the
    offset of [out_path], [i] the level counter. *)
Fixpoint path_level_loop (level i : nat) (in_path : bytes) (out : bytes) (o : nat)
  : res bytes :=
  match in_path with
  | [] => wr out o NUL
  | c :: r =>
      if i <=? level then
        out <- wr out o c ;;
        let i' := match r with c' :: _ => if ceq c' SL then S i else i | [] => i end in
        path_level_loop level i' r out (S o)
      else wr out o NUL
  end.

(** ush_utils.c:105-124 [ush_utils_get_path_level] *)
Definition ush_utils_get_path_level (level : nat) (in_path out : bytes) : res bytes :=
  if level =? 0 then c_strcpy out 0 (lit "/")
  else path_level_loop level 1 in_path out 0.

(** ush_utils.c:157-168, the loop of [ush_utils_path_upper] *)
Fixpoint path_upper_loop (path : bytes) (len : nat) : res bytes :=
  match len with
  | 0 => Ok path
  | S l =>
      c <- rd path l ;;
      if negb (ceq c SL) then path_upper_loop path l
      else if l =? 0 then wr path (l + 1) NUL
      else wr path l NUL
  end.

(** ush_utils.c:146-169 [ush_utils_path_upper]; [path] is the array. *)
Definition ush_utils_path_upper (path : bytes) : res bytes :=
  len <- c_strlen path 0 ;;
  if len =? 1 then wr path 0 NUL
  else path_upper_loop path len.

(** ush_utils.c:183-190, the loop of [ush_utils_path_last]; returns the offset of
    the result inside [in_path]. *)
Fixpoint path_last_loop (in_path : bytes) (i : nat) : nat :=
  match i with
  | 0 => 0
  | S j =>
      match nth_error in_path j with
      | Some c => if ceq c SL then S j else path_last_loop in_path j
      | None => 0
      end
  end.

(** ush_utils.c:171-193 [ush_utils_path_last]: the returned pointer points into
    [in_path], its value is the corresponding suffix. *)
Definition ush_utils_path_last (in_path : bytes) : bytes :=
  if length in_path =? 1 then in_path
  else skipn (path_last_loop in_path (length in_path)) in_path.

(** ush_utils.c:208-213, the loop of [ush_utils_get_last_arg] *)
Fixpoint last_arg_loop (input : bytes) (len : nat) : res nat :=
  match len with
  | 0 => Ok 0
  | S l =>
      c <- rd input len ;;
      if ceq c SP then Ok (len + 1) else last_arg_loop input l
  end.

(** ush_utils.c:195-216 [ush_utils_get_last_arg]: offset of the result in the
    array [input]. *)
Definition ush_utils_get_last_arg (input : bytes) : res nat :=
  len <- c_strlen input 0 ;;
  match len with
  | 0 => Ok 0
  | S l =>
      c <- rd input l ;;
      if ceq c SP then Ok (l + 1) else last_arg_loop input l
  end.

(** ush_utils.c:218-221 [ush_utils_startswith] *)
Definition ush_utils_startswith (input prefix : bytes) : bool := prefixb prefix input.

(** ush_utils.c:261-264 [ush_utils_is_printable] *)
Definition ush_utils_is_printable (ch : byte) : bool :=
  let n := N_of_ascii ch in (32 <=? n)%N && (n <=? 126)%N.

(** ush_utils.c:266-276 [hex_to_dec].  [char] may be signed: bytes >= 128 are then
    negative and fall through all ranges, as they do here. *)
Definition hex_to_dec (ch : byte) : N :=
  let n := N_of_ascii ch in
  if ((48 <=? n) && (n <=? 57))%N then n - 48
  else if ((65 <=? n) && (n <=? 70))%N then n - 65 + 10
  else if ((97 <=? n) && (n <=? 102))%N then n - 97 + 10
  else 0.

(** ush_utils.c:285-320, the loop of [ush_utils_decode_ascii].  One memory [m]
    holds both the input (read at [i]) and the output (written at [o]), so
    in-place decoding and disjoint buffers are both covered.  [state] is 0..3,
    [val] the high nibble already shifted. *)
Fixpoint decode_loop (fuel : nat) (m : bytes) (i o : nat) (max ret : nat)
         (state : nat) (val : N) : res (bytes * nat) :=
  match fuel with
  | 0 => Err EDiverge
  | S f =>
      ch <- rd m i ;;
      if ceq ch NUL || negb (ret <? max) then Ok (m, ret)
      else
        match state with
        | 0 =>
            if ceq ch BSL then decode_loop f m (S i) o max ret 1 val
            else
              m <- wr m o ch ;; decode_loop f m (S i) (S o) max (S ret) 0 val
        | 1 =>
            if ceq ch "x"%char then decode_loop f m (S i) o max ret 2 val
            else
              m <- wr m o ch ;; decode_loop f m (S i) (S o) max (S ret) 0 val
        | 2 => decode_loop f m (S i) o max ret 3 (N.shiftl (hex_to_dec ch) 4 mod 256)%N
        | _ =>
            let v := N.lor val (hex_to_dec ch) in
            m <- wr m o (ascii_of_N v) ;;
            decode_loop f m (S i) (S o) max (S ret) 0 v
        end
  end.

(** ush_utils.c:278-323 [ush_utils_decode_ascii]: [input = &m[i]], [output = &m[o]];
    returns the memory and the number of bytes written. *)
Definition ush_utils_decode_ascii (m : bytes) (i o max : nat) : res (bytes * nat) :=
  decode_loop (S (length m)) m i o max 0 0 0.
