(** Model of what the library knows about options (src/coap/option.h, decoder/option.h,
    src/exp/option-trait.h, src/coap.cpp) and of the observer that prints a message
    (src/exp/diagnostic-decoder-observer.h). *)
From Coq Require Import Ascii String ZArith.
From Verif Require Import Base UIntModel HeaderModel OptDecModel DecoderModel.
Local Open Scope N_scope.

(** src/coap/option.h 91-98 *)
Inductive vformat : Type := FUnknown | FEmpty | FOpaque | FUInt | FString.

(** src/coap/option.h 39-69, in the order of the file *)
Definition o_if_match : N := 1.
Definition o_uri_host : N := 3. (** option.h 46 *)
Definition o_etag : N := 4. (** option.h 48 *)
Definition o_if_none_match : N := 5. (** option.h 49 *)
Definition o_observe : N := 6. (** option.h 52 *)
Definition o_uri_port : N := 7. (** option.h 53 *)
Definition o_location_path : N := 8. (** option.h 54 *)
Definition o_uri_path : N := 11. (** option.h 55 *)
Definition o_content_format : N := 12. (** option.h 56 *)
Definition o_max_age : N := 14. (** option.h 57 *)
Definition o_uri_query : N := 15. (** option.h 58 *)
Definition o_accept : N := 17. (** option.h 59 *)
Definition o_location_query : N := 20. (** option.h 60 *)
Definition o_block1 : N := 23. (** option.h 63 *)
Definition o_block2 : N := 27. (** option.h 65 *)
Definition o_proxy_uri : N := 35. (** option.h 66 *)
Definition o_proxy_scheme : N := 39. (** option.h 67 *)
Definition o_size1 : N := 60. (** option.h 68 *)

(** src/coap/decoder/option.h 138-160, OptionDecoder::get_format *)
Definition get_format (n : N) : vformat :=
  if n =? o_if_match then FOpaque else if n =? o_uri_host then FString else if n =? o_etag then FOpaque
  else if n =? o_if_none_match then FEmpty else if n =? o_uri_port then FUInt else if n =? o_location_path then FString
  else if n =? o_uri_path then FString else if n =? o_content_format then FUInt else if n =? o_uri_query then FString
  else if n =? o_accept then FUInt else if n =? o_block1 then FUInt else if n =? o_block2 then FUInt else FUnknown.

(** src/exp/option-trait.h 115-155: format, shortest and longest value.  The description
    (79) is a constant nobody reads. *)
Definition trait (n : N) : vformat * (Z * Z) :=
  if n =? o_if_match then (FOpaque, (0, 8)%Z) else if n =? o_uri_path then (FString, (0, 255)%Z)
  else if n =? o_location_query then (FString, (0, 255)%Z) else if n =? o_block1 then (FUInt, (0, 3)%Z)
  else if n =? o_block2 then (FUInt, (0, 3)%Z) else if n =? o_size1 then (FUInt, (0, 4)%Z)
  else if n =? o_accept then (FUInt, (0, 2)%Z) else if n =? o_proxy_uri then (FString, (1, 1034)%Z)
  else if n =? o_proxy_scheme then (FString, (1, 255)%Z) else if n =? o_content_format then (FUInt, (0, 2)%Z)
  else if n =? o_etag then (FOpaque, (1, 8)%Z) else (FUnknown, (-1, -1)%Z).
(** option-trait.h 27-47 (the end of the list) and 49-87: runtime_trait, whose parts are
    format(), min() and max() *)
Fixpoint runtime_trait (known : list N) (n : N) : vformat * (Z * Z) :=
  match known with
  | [] => (FUnknown, (-1, -1)%Z)
  | k :: r => if n =? k then trait k else runtime_trait r n
  end.
(** option-trait.h 159-173: option_traits_type *)
Definition traits_known : list N :=
  [o_if_match; o_size1; o_uri_path; o_location_query; o_content_format; o_accept; o_etag; o_proxy_uri; o_proxy_scheme; o_block1; o_block2; o_size1].

(** no code: the characters of a string literal *)
Fixpoint str (s : string) : list N :=
  match s with EmptyString => [] | String c r => N_of_ascii c :: str r end.

(** src/coap.cpp 7-22, get_description; None is the null pointer *)
Definition describe (n : N) : option string :=
  if n =? 0 then Some "Zeroed"%string else if n =? o_etag then Some "ETag"%string else if n =? o_observe then Some "Observe"%string
  else if n =? o_uri_path then Some "Uri-Path"%string else if n =? o_content_format then Some "Content-Format"%string
  else if n =? o_uri_query then Some "Uri-Query"%string else if n =? o_accept then Some "Accept"%string
  else if n =? o_block1 then Some "Block1"%string else if n =? o_block2 then Some "Block2"%string else None.

(** no code: the C library's number output, base [b], [up] upper case *)
Definition digit (up : bool) (d : N) : N := if d <? 10 then 48 + d else if up then 55 + d else 87 + d.
Fixpoint digits_loop (fuel : nat) (up : bool) (b n : N) (acc : list N) : list N :=
  match fuel with
  | O => acc
  | S k => if n <? b then digit up n :: acc else digits_loop k up b (n / b) (digit up (n mod b) :: acc)
  end.
Definition digits (up : bool) (b n : N) : list N := digits_loop (S (N.size_nat n)) up b n [].
(** no code: the field widths of, %3d and %-10s *)
Definition pad_left (w : nat) (c : N) (t : list N) : list N := repeat c (w - List.length t) ++ t.
Definition pad_right (w : nat) (t : list N) : list N := t ++ repeat 32 (w - List.length t).

(** diagnostic-decoder-observer.h 17-50, opaque_dump_line *)
Definition dump_line (b : list N) (indent : bool) (max_size : nat) : list N :=
  (if indent then [32; 32; 32] else []) ++
  concat (map (fun x => pad_left 2 48 (digits true 16 x) ++ [32]) b) ++
  concat (repeat [46; 46; 32] (max_size - List.length b)) ++
  [32; 32; 32] ++ b ++ [10].

(** no code: puts of a C string: up to the first zero, and a newline *)
Fixpoint c_str (t : list N) : list N :=
  match t with [] => [] | x :: r => if x =? 0 then [] else x :: c_str r end.

(** diagnostic-decoder-observer.h 83-120: the value; [w] is the number of bits of long.  The zero
    is written at [128] when the text has 128 characters or more (91-94). *)
Definition diag_value (w : N) (n : N) (v : list N) : res (list N) :=
  match get_format n with
  | FString => if (List.length v <? 128)%nat then Ok (c_str v ++ [10]) else Fault
  | FEmpty => Ok (str "(Empty)" ++ [10])
  | FOpaque => Ok (dump_line v false 0)
  | FUInt => Ok (digits false 10 (uint_get w v) ++ [10])
  | FUnknown => Ok (str "N/A" ++ [10])
  end.

(** diagnostic-decoder-observer.h 73-81 *)
Definition diag_option_head (n : N) (v : list N) : list N :=
  str "[DEBUG] Option: (" ++ digits false 10 n ++ str ") len=" ++ pad_left 3 32 (digits false 10 (N.of_nat (List.length v))) ++ [32] ++
  pad_right 10 (str (match describe n with Some d => d | None => "Unknown" end)) ++ str " value = ".

(** diagnostic-decoder-observer.h 64-140, on_notify; the other events have none *)
Definition diag_event (w : N) (e : event) : res (list N) :=
  match e with
  | EHeader h => Ok (str "[DEBUG] Header: tkl=" ++ digits false 10 (hdr_tkl h) ++ str " mid=" ++ digits false 16 (hdr_mid h) ++ [10])
  | EToken t => Ok (str "[DEBUG] Token: " ++ dump_line t false 0)
  | EOption n v _ => bind (diag_value w n v) (fun t => Ok (diag_option_head n v ++ t))
  | EPayload b _ => Ok (str "[DEBUG] Payload: len=" ++ digits false 10 (N.of_nat (List.length b)) ++ [10] ++ dump_line b true 16)
  | ECompleted => Ok (str "[DEBUG] Completed" ++ [10])
  | EOptStart | EOptDone => Ok []
  end.

(** The output for a list of events. *)
Fixpoint diag (w : N) (es : list event) : res (list N) :=
  match es with
  | [] => Ok []
  | e :: r => bind (diag_event w e) (fun t => bind (diag w r) (fun u => Ok (t ++ u)))
  end.
