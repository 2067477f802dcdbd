(** Specification of the protobuf wire format, written from the public encoding
    document (https://protobuf.dev/programming-guides/encoding/, cited at
    /repo/protohelpers/protohelpers.go:2), with ordinary arithmetic and none of
    the model's functions. *)
From Coq Require Import ZArith List Bool.
From Verif Require Import Base Schema Value.
Import ListNotations.
Open Scope Z_scope.

(** Shortest base-128 varint of a non-negative integer: seven bits per byte,
    least significant first, bit 7 set on all bytes but the last. *)
Fixpoint varint_f (n : nat) (v : Z) : list Z :=
  match n with
  | O => [v]
  | S n' => if v <? 128 then [v] else (v mod 128 + 128) :: varint_f n' (v / 128)
  end.
Definition varint (v : Z) : list Z := varint_f (Z.to_nat (Z.log2 v)) v.

(** A byte string that is one varint (of any length, not necessarily shortest),
    and its value. *)
Fixpoint is_varint (bs : list Z) : bool :=
  match bs with
  | [] => false
  | [b] => (0 <=? b) && (b <? 128)
  | b :: r => (128 <=? b) && (b <? 256) && is_varint r
  end.
Fixpoint vval (bs : list Z) : Z :=
  match bs with
  | [] => 0
  | b :: r => b mod 128 + 128 * vval r
  end.

(** Little-endian bytes and their value. *)
Fixpoint le_bytes (n : nat) (v : Z) : list Z :=
  match n with
  | O => []
  | S n' => v mod 256 :: le_bytes n' (v / 256)
  end.
Fixpoint le_val (bs : list Z) : Z :=
  match bs with
  | [] => 0
  | b :: r => b + 256 * le_val r
  end.

(** Zig-zag: 0, -1, 1, -2, ... become 0, 1, 2, 3, ... *)
Definition zz (z : Z) : Z := if z <? 0 then - 2 * z - 1 else 2 * z.
Definition unzz (n : Z) : Z := if Z.even n then n / 2 else - (n / 2) - 1.

(** Field tag, length-delimited payload. *)
Definition tag (num wt : Z) : list Z := varint (num * 8 + wt).
Definition ld (bs : list Z) : list Z := varint (zlen bs) ++ bs.

(** Wire type of each kind (encoding document, table "Message structure"). *)
Definition wire_of (k : kind) : Z :=
  match k with
  | KInt32 | KInt64 | KUint32 | KUint64 | KSint32 | KSint64 | KBool | KEnum => 0
  | KFixed64 | KSfixed64 | KDouble => 1
  | KString | KBytes | KMessage _ => 2
  | KGroup _ => 3
  | KFixed32 | KSfixed32 | KFloat => 5
  end.

(** Numeric value left out of an implicit-presence field: zero (for floats, a
    value equal to zero). *)
Definition zero_num (k : kind) (z : Z) : bool :=
  match k with
  | KDouble => z mod 9223372036854775808 =? 0
  | KFloat => z mod 2147483648 =? 0
  | _ => z =? 0
  end.

Section Enc.
Variable sc : schema.
(** The order in which a message writes its fields. *)
Variable ord : nat -> list fdesc.
Variable rec : nat -> val -> list Z.

(** A nested message; messages without helpers are encoded by upstream. *)
Definition enc_sub (m : nat) (v : val) : list Z :=
  if md_foreign (md_of sc m) then up_enc (sc_up sc) m v else rec m v.

Definition enc_value (k : kind) (v : val) : list Z :=
  match k with
  | KDouble | KFixed64 | KSfixed64 => le_bytes 8 (vint v mod 18446744073709551616)
  | KFloat | KFixed32 | KSfixed32 => le_bytes 4 (vint v mod 4294967296)
  | KInt32 | KInt64 | KUint32 | KUint64 | KEnum => varint (vint v mod 18446744073709551616)
  | KSint32 | KSint64 => varint (zz (vint v))
  | KBool => [if vint v =? 0 then 0 else 1]
  | KString | KBytes => ld (vbytes v)
  | KMessage m => ld (enc_sub m v)
  | KGroup m => enc_sub m v
  end.

Definition enc_tagged (num : Z) (k : kind) (v : val) : list Z :=
  match k with
  | KGroup m => tag num 3 ++ enc_sub m v ++ tag num 4
  | _ => tag num (wire_of k) ++ enc_value k v
  end.

Definition enc_entry (num : Z) (kk vk : kind) (e : val * val) : list Z :=
  tag num 2 ++ ld (tag 1 (wire_of kk) ++ enc_value kk (fst e)
                   ++ tag 2 (wire_of vk) ++ enc_value vk (snd e)).

(** Is the value of an implicit-presence field the default one? *)
Definition default_value (k : kind) (v : val) : bool :=
  match k with
  | KString | KBytes => match vbytes v with [] => true | _ => false end
  | KMessage _ | KGroup _ => is_nil v
  | _ => zero_num k (vint v)
  end.

(** One field, given its struct member. *)
Definition enc_field (f : fdesc) (v : val) : list Z :=
  match f_ty f with
  | TMap kk vk => concat (map (enc_entry (f_num f) kk vk) (rev (vmap v)))
  | TField (LRepeated false) k => concat (map (enc_tagged (f_num f) k) (vlist v))
  | TField (LRepeated true) k =>
      match vlist v with
      | [] => []
      | l => tag (f_num f) 2 ++ ld (concat (map (enc_value k) l))
      end
  | TField LImplicit k => if default_value k v then [] else enc_tagged (f_num f) k v
  | TField (LOptional | LRequired) k =>
      match v with
      | VNil => []
      | VPtr x => enc_tagged (f_num f) k x
      | x => enc_tagged (f_num f) k x
      end
  | TField LOneof k =>
      match v with
      | VOneof n x => if n =? f_num f then enc_tagged (f_num f) k x else []
      | _ => []
      end
  end.

Definition enc_body (m : nat) (v : val) : list Z :=
  match v with
  | VMsg slots unk _ =>
      concat (map (fun f => enc_field f (slot slots (f_slot f))) (ord m))
      ++ (if md_keep (md_of sc m) then unk else [])
  | _ => []
  end.
End Enc.

Fixpoint enc_msg (sc : schema) (ord : nat -> list fdesc) (n : nat) (m : nat) (v : val) : list Z :=
  match n with
  | O => []
  | S n' => enc_body sc ord (enc_msg sc ord n') m v
  end.

(** The wire encoding of message [v] of type [m], fields in the order [ord]. *)
Definition Encoding (sc : schema) (ord : nat -> list fdesc) (m : nat) (v : val) : list Z :=
  enc_msg sc ord (S (vdepth v)) m v.

(** Required fields. *)
Section Req.
Variable sc : schema.
Variable rec : nat -> val -> bool.

Definition req_value (k : kind) (v : val) : bool :=
  match k with
  | KMessage m | KGroup m =>
      if md_foreign (md_of sc m) then up_init (sc_up sc) m v else rec m v
  | _ => true
  end.

Definition req_field (f : fdesc) (v : val) : bool :=
  match f_ty f with
  | TMap _ vk => forallb (fun e => req_value vk (snd e)) (vmap v)
  | TField (LRepeated _) k => forallb (req_value k) (vlist v)
  | TField LRequired k =>
      match v with VNil => false | VPtr x => req_value k x | x => req_value k x end
  | TField LOptional k =>
      match v with VNil => true | VPtr x => req_value k x | x => req_value k x end
  | TField LImplicit k => is_nil v || req_value k v
  | TField LOneof k =>
      match v with
      | VOneof n x => if n =? f_num f then is_nil x || req_value k x else true
      | _ => true
      end
  end.

Definition req_body (m : nat) (v : val) : bool :=
  match v with
  | VMsg slots _ _ =>
      forallb (fun f => req_field f (slot slots (f_slot f))) (md_fields (md_of sc m))
  | _ => true
  end.
End Req.

Fixpoint req_msg (sc : schema) (n : nat) (m : nat) (v : val) : bool :=
  match n with
  | O => true
  | S n' => req_body sc (req_msg sc n') m v
  end.

(** Are all required fields set, here and in every nested message? *)
Definition Initialized (sc : schema) (m : nat) (v : val) : bool :=
  req_msg sc (S (vdepth v)) m v.
