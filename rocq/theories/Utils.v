(** Model of /repo/elgas/utils.py. *)
From Verif Require Export Py.
Open Scope Z_scope.

(** elgas/utils.py:60-65 calculate_lrc *)
Definition calculate_lrc (data : bytes) : Z :=
  Z.land (fold_left (fun lrc b => let temp := Z.lxor lrc b in Z.land temp 255) data 0) 255.

(** elgas/utils.py:68-73 calculate_checksum *)
Definition calculate_checksum (data : bytes) : Z :=
  Z.land (fold_left (fun checksum b => let temp := checksum + b in Z.land temp 255) data 0) 255.

(** elgas/utils.py:78-84, body of the loop of calculate_drc *)
Definition drc_step (drc b : Z) : Z :=
  let temp := Z.shiftl drc 1 in
  let temp := if negb (Z.land temp 256 =? 0) then temp + 1 else temp in
  let temp := Z.land temp 255 in
  let temp := Z.lxor temp b in
  Z.land temp 255.
(** elgas/utils.py:76-85 calculate_drc *)
Definition calculate_drc (data : bytes) : Z := Z.land (fold_left drc_step data 0) 255.

(** elgas/utils.py:92-97, inner loop of generate_crc16_table; state (crc, byte) *)
Fixpoint crc_entry (n : nat) (crc byte : Z) : Z :=
  match n with
  | O => crc
  | S n' =>
      let crc' := if negb (Z.land (Z.lxor byte crc) 1 =? 0)
                  then Z.lxor (Z.shiftr crc 1) 40961 (* 0xA001 *)
                  else Z.shiftr crc 1 in
      crc_entry n' crc' (Z.shiftr byte 1)
  end.
(** elgas/utils.py:88-99 generate_crc16_table, 102 crc16_table *)
Definition generate_crc16_table (_ : unit) : list Z :=
  map (fun byte => crc_entry 8 0 (Z.of_nat byte)) (seq 0 256).
Definition crc16_table : list Z := Eval vm_compute in generate_crc16_table tt.

(** elgas/utils.py:108-109, body of the loop of calculate_crc. The table has
    256 entries and the index is masked to 0..255, so the default 0 is never
    used (lemma crc_index_in_table). *)
Definition crc_step (crc a : Z) : Z :=
  let idx := nth (Z.to_nat (Z.land (Z.lxor crc a) 255)) crc16_table 0 in
  Z.lxor (Z.land (Z.shiftr crc 8) 255) idx.
(** elgas/utils.py:105-111 calculate_crc *)
Definition calculate_crc (data : bytes) : Z :=
  let crc := fold_left crc_step data 65535 in
  Z.lor (Z.land (Z.shiftl crc 8) 65280) (Z.land (Z.shiftr crc 8) 255).

(** elgas/utils.py:114-132 escape_characters *)
Definition escape_characters (data : bytes) : res bytes :=
  if negb (endswith data [13]) then Err ValueError
  else
    let workable_data := slice_to (-1) data in
    let escaped_data :=
      replace1 141 [27; 15] (replace1 13 [27; 14] (replace1 27 [27; 27] workable_data)) in
    Ok (escaped_data ++ [13]).

(** elgas/utils.py:135-168 return_characters; the while loop pops from the
    front, hence recursion on the list. The inner pop(0) of an empty
    bytearray (line 155) raises IndexError. *)
Fixpoint return_characters (data : bytes) : res bytes :=
  match data with
  | [] => Ok []
  | byte :: rest =>
      if byte =? 27 then
        match rest with
        | [] => Err IndexError
        | next_byte :: rest' =>
            out <- return_characters rest' ;;
            if next_byte =? 14 then Ok (13 :: out)
            else if next_byte =? 27 then Ok (27 :: out)
            else if next_byte =? 15 then Ok (141 :: out)
            else Ok (byte :: next_byte :: out)
        end
      else
        out <- return_characters rest ;; Ok (byte :: out)
  end.

(** elgas/utils.py:176, code points of possible_chars: a-v x-z A-V X-Z 0-9
    (the letter w/W is missing in the source) *)
Definition possible_chars : str :=
  [97;98;99;100;101;102;103;104;105;106;107;108;109;110;111;112;113;114;115;
   116;117;118;120;121;122;
   65;66;67;68;69;70;71;72;73;74;75;76;77;78;79;80;81;82;83;84;85;86;88;89;90;
   48;49;50;51;52;53;54;55;56;57].
(** random.choices(possible_chars, k=2): draw i is determined by the arbitrary
    oracle [rnd i] *)
Definition random_choice (rnd : nat -> Z) (i : nat) : Z :=
  nth (Z.to_nat (rnd i mod len possible_chars)) possible_chars 0.
(** elgas/utils.py:171-179 pad_password *)
Definition pad_password (rnd : nat -> Z) (password : str) : str :=
  password ++ [33; 3] ++ [random_choice rnd 0; random_choice rnd 1].

(** elgas/utils.py:239-245 from_bcd *)
Definition from_bcd (data : bytes) : res Z := int_of_str (hex data).

(** elgas/utils.py:226-236 to_bdc *)
Definition to_bdc (number : Z) : res bytes :=
  let chars := str_int number in
  let chars := if negb (len chars mod 2 =? 0) then 48 :: chars else chars in
  fromhex chars.

(** elgas/utils.py:182-208 bytes_to_datetime *)
Definition bytes_to_datetime (data : bytes) : res (datetime * bool * bool) :=
  if negb (len data =? 6) then Err ValueError
  else
    second <- from_bcd (slice 0 1 data) ;;
    minute <- from_bcd (slice 1 2 data) ;;
    hour_data <- getitem 2 data ;;
    hour_byte <- to_le 1 (Z.land hour_data 63) ;;
    hour <- from_bcd hour_byte ;;
    let is_dst := negb (Z.land hour_data 128 =? 0) in
    let supports_dst := negb (Z.land hour_data 64 =? 0) in
    day <- from_bcd (slice 3 4 data) ;;
    month <- from_bcd (slice 4 5 data) ;;
    y <- from_bcd (slice_from 5 data) ;;
    let year := y + 2000 in
    t <- make_datetime year month day hour minute second ;;
    Ok (t, is_dst, supports_dst).

(** elgas/utils.py:211-223 datetime_to_bytes *)
Definition datetime_to_bytes (timestamp : datetime) : res bytes :=
  s <- to_bdc (second timestamp) ;;
  mi <- to_bdc (minute timestamp) ;;
  h <- to_bdc (hour timestamp) ;;
  d <- to_bdc (day timestamp) ;;
  mo <- to_bdc (month timestamp) ;;
  y <- to_bdc (year timestamp - 2000) ;;
  Ok (s ++ mi ++ h ++ d ++ mo ++ y).

(** elgas/utils.py:252-254, the popping loop of pop_many. When it raises, the
    array has been partly consumed; every caller works on a local copy and
    lets the exception propagate, so the consumed array is not returned. *)
Fixpoint pop_loop (amount : nat) (array : bytes) : res (bytes * bytes) :=
  match amount with
  | O => Ok ([], array)
  | S n =>
      p <- pop0 array ;;
      let '(b, array') := p in
      q <- pop_loop n array' ;;
      let '(out, array'') := q in
      Ok (b :: out, array'')
  end.
(** elgas/utils.py:248-254 pop_many: returns (popped bytes, rest of the array) *)
Definition pop_many (array : bytes) (amount : Z) : res (bytes * bytes) :=
  if amount <? 2 then Err ValueError else pop_loop (Z.to_nat amount) array.

(** elgas/utils.py:257-269 pretty_text; decoding latin-1 is the identity on
    code points and never fails *)
Definition pretty_text (in_data : bytes) : str :=
  let in_data := match rindex_of 0 in_data with
                 | Some last_termination_char => slice_to last_termination_char in_data
                 | None => in_data
                 end in
  rstrip (lstrip (replace1 0 [32] in_data)).

(** ".".join(numbers) *)
Fixpoint join_dots (l : list str) : str :=
  match l with
  | [] => []
  | [s] => s
  | s :: l' => s ++ 46 :: join_dots l'
  end.
(** elgas/utils.py:272-276 parse_ip_address *)
Definition parse_ip_address (data : bytes) : res str :=
  if negb (len data =? 4) then Err ValueError
  else Ok (join_dots (map str_int data)).
