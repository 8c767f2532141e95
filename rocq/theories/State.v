(** Model of /repo/elgas/state.py. *)
From Verif Require Export Application.
Open Scope Z_scope.

(** The objects that can be passed to process_event: the PDUs of
    application.py, or any object of another class. *)
Inductive event :=
| Request (r : request)
| Response (p : response_pdu)
| OtherObject.

(** elgas/state.py:33-46, the sentinels that are states *)
Inductive protocol_state :=
| IDLE
| AWAITING_READ_ACTUAL_VALUES_RESPONSE
| AWAITING_READ_DEVICE_PARAMETERS_RESPONSE
| AWAITING_READ_TIME_RESPONSE
| AWAITING_READ_ARCHIVE_BY_TIME_RESPONSE
| AWAITING_READ_ARCHIVE_RESPONSE
| AWAITING_WRITE_TIME_RESPONSE.

(** elgas/state.py:50-71 ELGAS_STATE_TRANSITIONS; [None] stands for KeyError *)
Definition transition (s : protocol_state) (e : event) : option protocol_state :=
  match s, e with
  | IDLE, Request (ReadInstantaneousValuesRequest _) => Some AWAITING_READ_ACTUAL_VALUES_RESPONSE
  | IDLE, Request (ReadDeviceParametersRequest _ _ _) => Some AWAITING_READ_DEVICE_PARAMETERS_RESPONSE
  | IDLE, Request ReadTimeRequest => Some AWAITING_READ_TIME_RESPONSE
  | IDLE, Request (ReadArchiveByTimeRequest _ _ _ _) => Some AWAITING_READ_ARCHIVE_BY_TIME_RESPONSE
  | IDLE, Request (ReadArchiveRequest _ _ _ _) => Some AWAITING_READ_ARCHIVE_RESPONSE
  | IDLE, Request (WriteTimeRequest _ _ _) => Some AWAITING_WRITE_TIME_RESPONSE
  | AWAITING_READ_ACTUAL_VALUES_RESPONSE, Response (ReadInstantaneousValuesResponse _ _ _ _ _ _ _ _) => Some IDLE
  | AWAITING_READ_DEVICE_PARAMETERS_RESPONSE, Response (ReadDeviceParametersResponse _ _ _ _) => Some IDLE
  | AWAITING_READ_TIME_RESPONSE, Response (ReadTimeResponse _ _ _ _ _) => Some IDLE
  | AWAITING_READ_ARCHIVE_BY_TIME_RESPONSE, Response (ReadArchiveByTimeResponse _ _ _) => Some IDLE
  | AWAITING_READ_ARCHIVE_RESPONSE, Response (ReadArchiveResponse _ _ _) => Some IDLE
  | AWAITING_WRITE_TIME_RESPONSE, Response WriteTimeResponse => Some IDLE
  | _, _ => None
  end.

(** elgas/state.py:82-94 ElgasState.process_event: the new state, or the
    exception (the state is then not assigned) *)
Definition process_event (s : protocol_state) (e : event) : res protocol_state :=
  match transition s e with
  | Some s' => Ok s'
  | None => Err LocalElgasProtocolError
  end.
