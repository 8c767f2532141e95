(** Independent specification of what the log tells: the data on the line, the
    states of the protocol, and the calls of the client with their results. *)
From Coq Require Import String.
From Verif Require Import Py SpecUtils SpecFrames SpecSecurity SpecConnection SpecApplication SpecPdu SpecText.
From Verif Require Import Connection ParamLang Parameters Client SpecClient Transport Stack SpecSession Secret Log.
Open Scope string_scope.
Open Scope list_scope.
Open Scope Z_scope.

(** the entry has one of these messages *)
Definition says (messages : list string) (e : entry) : bool := existsb (fun m => list_eqb (message e) (text m)) messages.
(** the message starts with this text *)
Definition begins (start : string) (e : entry) : bool := list_eqb (firstn (String.length start) (message e)) (text start).
Definition debug (m : string) (vs : list (str * object)) : entry := mk_entry Debug (text m) vs.
Definition inform (m : string) (vs : list (str * object)) : entry := mk_entry Info (text m) vs.
Definition item (key : string) (shown : str) : str * object := (text key, Plain shown).

Section Told.
Variable sh : log_shown.

(** *** the data on the line *)
Definition data_entries : list entry -> list entry :=
  filter (says ["Sent data"; "Received data"; "Added data to connection buffer";
                "Received an end char when read buffer was empty. This is a known issue and data is ignored."]).
(** what is told about data that goes into the buffer *)
Inductive buffering : bytes -> list entry -> Prop :=
| no_data : buffering [] []
| stray_end : buffering [13]
    [inform "Received an end char when read buffer was empty. This is a known issue and data is ignored." []]
| data_added before d : d <> [] -> buffering d
    [debug "Added data to connection buffer" [item "data" (show_bytes sh d); item "total_buffer" (show_buffer sh (before ++ d))]].
Definition moved (x : transport_call * answer transport_result) : bool :=
  match x with (TSend _, Done (Ok _)) | (TRecv, Done (Ok _)) => true | _ => false end.
(** the entries for the calls of the transport *)
Inductive data_told : history -> list entry -> Prop :=
| data_end : data_told [] []
| data_sent d r x h l : data_told h l ->
    data_told ((TSend d, Done (Ok r)) :: h) (debug "Sent data" [item "data" (show_bytes sh d); x] :: l)
| data_received d x note h l : buffering d note -> data_told h l ->
    data_told ((TRecv, Done (Ok (TData d))) :: h) (debug "Received data" [item "data" (show_bytes sh d); x] :: note ++ l)
| data_not_moved x h l : moved x = false -> data_told h l -> data_told (x :: h) l.

(** *** the states of the protocol *)
Definition state_entries : list entry -> list entry := filter (begins "Elgas state transitioned from ").
Definition transition_entry (s s' : protocol_state) : entry :=
  mk_entry Debug (text "Elgas state transitioned from " ++ show_state_name sh s ++ text " to " ++ show_state_name sh s') [].
(** a way from state to state, where requests and responses alternate *)
Inductive states_told : protocol_state -> list entry -> protocol_state -> Prop :=
| state_stays s : states_told s [] s
| state_asks s s' l s'' : outstanding s = None -> outstanding s' <> None -> states_told s' l s'' ->
    states_told s (transition_entry s s' :: l) s''
| state_answered s l s'' : outstanding s <> None -> states_told IDLE l s'' ->
    states_told s (transition_entry s IDLE :: l) s''.

(** *** the connection *)
Definition control_entries : list entry -> list entry := filter (fun e => begins "Connected to " e || begins "Connection to " e).
(** [up]: is there a connection before the call *)
Definition control_told (up : bool) (o : operation) (a : answer returned) : list entry :=
  match o, a with
  | OpConnect, Done (Ok _) => [mk_entry Info (text "Connected to " ++ show_address sh) []]
  | OpDisconnect, Done (Ok _) =>
      if up then [mk_entry Info (text "Connection to " ++ show_address sh ++ text " is closed") []] else []
  | _, _ => []
  end.

(** *** the calls of the client *)
Definition call_entries : list entry -> list entry :=
  filter (says ["Reading instantaneous values"; "Received instantaneous values"; "Reading device time"; "Got device time";
    "Writing time to device"; "Finished writing time to device"; "Reading device parameters"; "Requesting device parameters";
    "Received device parameters"; "More parameters available"; "Received total parameters data";
    "Sending request PDU"; "Received PDU"]).
Definition asked (r : request) : entry := debug "Sending request PDU" [(text "pdu", request_object sh r)].
Definition got (p : response_pdu) : entry := inform "Received PDU" [item "pdu" (show_response sh p)].
Definition before (o : operation) : list entry :=
  match o with
  | OpReadValues => [inform "Reading instantaneous values" []]
  | OpReadTime => [inform "Reading device time" []]
  | OpWriteTime t _ => [inform "Writing time to device" [item "time" (show_isoformat sh t)]]
  | _ => []
  end.
Definition after (o : operation) (v : returned) : list entry :=
  match o, v with
  | OpReadValues, _ => [inform "Received instantaneous values" []]
  | OpReadTime, RTime t => [inform "Got device time" [item "time" (show_isoformat sh t)]]
  | OpWriteTime _ _, _ => [inform "Finished writing time to device" []]
  | _, _ => []
  end.
Definition no_value (a : answer returned) : Prop := forall v, a <> Done (Ok v).
(** what parsing the data of all pages ends with *)
Definition parsed (data : bytes) : answer returned :=
  match parse None (Some data) with
  | Some (Ok objects) => Done (Ok (RObjects objects))
  | Some (Err e) => Done (Err e)
  | None => Waiting
  end.
(** the pages from object [n] on, after the data [total] *)
Inductive pages_told (password : str) : Z -> bytes -> answer returned -> list entry -> Prop :=
| page_unanswered n total a : no_value a ->
    pages_told password n total a
      [inform "Requesting device parameters" [item "object_count" (show_int sh n)]; asked (ReadDeviceParametersRequest password n 1024)]
| page_refused n total p e :
    pages_told password n total (Done (Err e))
      [inform "Requesting device parameters" [item "object_count" (show_int sh n)]; asked (ReadDeviceParametersRequest password n 1024); got p]
| page_last n total data number amount :
    pages_told password n total (parsed (total ++ data))
      [inform "Requesting device parameters" [item "object_count" (show_int sh n)]; asked (ReadDeviceParametersRequest password n 1024);
       got (ReadDeviceParametersResponse data number amount true);
       inform "Received device parameters" [item "object_amount" (show_int sh amount)];
       debug "Received total parameters data" [item "data" (show_bytes sh (total ++ data))]]
| page_more n total data number amount a l :
    pages_told password (n + amount) (total ++ data) a l ->
    pages_told password n total a
      (inform "Requesting device parameters" [item "object_count" (show_int sh n)] :: asked (ReadDeviceParametersRequest password n 1024) ::
       got (ReadDeviceParametersResponse data number amount false) ::
       inform "Received device parameters" [item "object_amount" (show_int sh amount)] ::
       inform "More parameters available" [item "next_object_count" (show_int sh (n + amount))] :: l).
(** the entries of a call that ends with [a] *)
Inductive call_told (password : str) : operation -> answer returned -> list entry -> Prop :=
| call_connect a : call_told password OpConnect a []
| call_disconnect a : call_told password OpDisconnect a []
| call_answered o r p v : asks password o = Some r -> gives o p v ->
    call_told password o (Done (Ok v)) (before o ++ [asked r; got p] ++ after o v)
| call_unanswered o r a : asks password o = Some r -> no_value a -> call_told password o a (before o ++ [asked r])
| call_refused o r p e : asks password o = Some r -> call_told password o (Done (Err e)) (before o ++ [asked r; got p])
| call_parameters n a l : pages_told password n [] a l ->
    call_told password (OpReadParameters n) a (inform "Reading device parameters" [item "read_from" (show_int sh n)] :: l).
Inductive calls_told (password : str) : list operation -> list (answer returned) -> list entry -> Prop :=
| calls_end os : calls_told password os [] []
| calls_next o os a vs l l' : call_told password o a l -> calls_told password os vs l' ->
    calls_told password (o :: os) (a :: vs) (l ++ l').
End Told.
