(** The option registry of the RFCs, and numbers as text. *)
From Coq Require Import String ZArith.
From Verif Require Import Base DiagModel.
Local Open Scope N_scope.

(** RFC 7252 table 4, RFC 7641 section 2, RFC 7959 sections 2.1 and 4: number, name,
    format, shortest and longest value *)
Definition entry (n : N) (name : string) (f : vformat) (lo hi : Z) : N * string * vformat * (Z * Z) := (n, name, f, (lo, hi)).
Definition registry : list (N * string * vformat * (Z * Z)) :=
  [entry 1 "If-Match" FOpaque 0 8; entry 3 "Uri-Host" FString 1 255; entry 4 "ETag" FOpaque 1 8;
   entry 5 "If-None-Match" FEmpty 0 0; entry 6 "Observe" FUInt 0 3; entry 7 "Uri-Port" FUInt 0 2;
   entry 8 "Location-Path" FString 0 255; entry 11 "Uri-Path" FString 0 255; entry 12 "Content-Format" FUInt 0 2;
   entry 14 "Max-Age" FUInt 0 4; entry 15 "Uri-Query" FString 0 255; entry 17 "Accept" FUInt 0 2;
   entry 20 "Location-Query" FString 0 255; entry 23 "Block2" FUInt 0 3; entry 27 "Block1" FUInt 0 3; entry 28 "Size2" FUInt 0 4;
   entry 35 "Proxy-Uri" FString 1 1034; entry 39 "Proxy-Scheme" FString 1 255; entry 60 "Size1" FUInt 0 4].
Definition registered (n : N) (name : string) (f : vformat) (range : Z * Z) : Prop := In (n, name, f, range) registry.

(** the value of a digit, and of a row of them *)
Definition digit_of (up : bool) (c : N) : option N :=
  if (48 <=? c) && (c <=? 57) then Some (c - 48)
  else if up then (if (65 <=? c) && (c <=? 70) then Some (c - 55) else None)
  else (if (97 <=? c) && (c <=? 102) then Some (c - 87) else None).
Definition value_of (up : bool) (b : N) (t : list N) : N :=
  fold_left (fun a c => a * b + match digit_of up c with Some d => d | None => 0 end) t 0.
(** [t] is [n] in base [b] without needless zeros *)
Definition numeral (up : bool) (b n : N) (t : list N) : Prop :=
  Forall (fun c => exists d, digit_of up c = Some d /\ d < b) t /\ value_of up b t = n /\ t <> [] /\ (hd 0 t = 48 -> t = [48]).

(** two upper case hex digits and a blank for each byte *)
Fixpoint unhex (t : list N) : option (list N) :=
  match t with
  | [] => Some []
  | a :: b :: c :: r =>
      match digit_of true a, digit_of true b, unhex r with
      | Some x, Some y, Some l => if c =? 32 then Some (x * 16 + y :: l) else None
      | _, _, _ => None
      end
  | _ => None
  end.
