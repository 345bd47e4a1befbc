(** Model of the names given to states and types (src/coap.cpp, src/coap/header.h), and of the
    repeater of src/exp/uripath-repeater.h. *)
From Coq Require Import String.
From Verif Require Import Base HeaderModel OptEncModel OptDecModel DecoderModel DiagModel.
Local Open Scope N_scope.

(** src/coap.cpp 25-45, get_description(Root::State); None is the null pointer *)
Definition describe_root (s : rstate) : option string :=
  match s with
  | RDone => Some "Done"
  | RHeader => Some "Header"
  | HeaderDone => Some "Header Done"
  | RToken => Some "Token"
  | TokenStart => Some "Token Start"
  | TokenDone => Some "Token Done"
  | OptionsStart => Some "Options Start"
  | ROptions => Some "Options"
  | OptionsDone => Some "Options Done"
  | RPayload => Some "Payload"
  | PayloadDone => Some "Payload Done"
  | Uninitialized => None
  end%string.

(** src/coap.cpp 48-79, get_description(Option::State) *)
Definition describe_option (s : ostate) : option string :=
  match s with
  | FirstByte => Some "Inspecting initial option data"
  | OptionDeltaDone => Some "Delta (option number) found"
  | OPayload => Some "Payload marker found"
  | OptionDelta => Some "Delta found"
  | OptionLengthDone => Some "Option length compltely found"
  | OptionValue => Some "Inspecting value data"
  | OptionValueDone => Some "Value data complete"
  | OptionDeltaAndLengthDone => Some "Delta and length simultaneously done"
  | FirstByteDone | OptionLength | ValueStart | OptionDone => None
  end%string.

(** src/coap/option.h 73-88: the number of a state *)
Definition ostate_num (s : ostate) : N :=
  match s with
  | FirstByte => 0 | FirstByteDone => 1 | OptionDelta => 2 | OptionDeltaDone => 3 | OptionLength => 4
  | OptionLengthDone => 5 | OptionDeltaAndLengthDone => 6 | ValueStart => 7 | OptionValue => 8
  | OptionValueDone => 9 | OptionDone => 10 | OPayload => 11
  end.

(** src/coap.cpp 82-93, operator<< for Option::State: the characters put out *)
Definition print_option (s : ostate) : list N :=
  match describe_option s with
  | Some t => str t
  | None => digits false 10 (ostate_num s)
  end.

(** src/coap/header.h 429-439, to_string(Header::TypeEnum), on the number of the type *)
Definition type_string (t : N) : option string :=
  if t =? 0 then Some "Confirmable"%string else if t =? 1 then Some "NonConfirmable"%string
  else if t =? 2 then Some "Acknowledgement"%string else if t =? 3 then Some "Reset"%string else None.

(** src/coap/header.h 443-447, operator<<: the null pointer must not be put out *)
Definition print_type (t : N) : res (list N) :=
  match type_string t with Some s => Ok (str s) | None => Fault end.

(** src/exp/uripath-repeater.h 355-372, UriPathRepeater::on_notify: whatever option is reported, its
    bytes go on as a uri_path event.  The other events have no on_notify.  The result: the paths of the
    uri_path events the inner subject gets. *)
Definition repeat_event (e : event) : list (list N) :=
  match e with EOption _ v _ => [v] | _ => [] end.
(** the same: all events of a decoder *)
Definition repeat_events (es : list event) : list (list N) := flat_map repeat_event es.
