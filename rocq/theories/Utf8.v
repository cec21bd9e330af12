(** UTF-8 subject iterator. Source: /repo/include/ctre/utf8.hpp lines 18-231.
    Memory is the list of code units that may be read (values 0..255); an iterator is an offset into
    it; [len] is the offset of the iterator's [end] pointer. [None] is an out-of-bounds access. *)
From Coq Require Import List ZArith Bool.
Import ListNotations.
Local Open Scope Z_scope.

(** utf8.hpp lines 124 and 181: the 2-bit table indexed by the top five bits of a code unit. *)
Definition utf8_extra (b : Z) : Z :=
  Z.land (Z.shiftr 0x3A55000000000000 (Z.land (Z.shiftr b 2) 62)) 3.

(** lines 116-126: [operator++]. With [strict], a pointer beyond one past the end of the memory is
    undefined behaviour by itself; without, only reads are. *)
Definition utf8_next (strict : bool) (mem : list Z) (p : nat) : option nat :=
  match nth_error mem p with
  | None => None
  | Some b =>
      let p' := (p + Z.to_nat (utf8_extra b) + 1)%nat in
      if strict && negb (Nat.leb p' (length mem)) then None else Some p'
  end.

Definition is_cont (b : Z) : bool := Z.land b 192 =? 128.

(** lines 135-137: the backward loop over continuation units. *)
Fixpoint utf8_back (mem : list Z) (p : nat) : option nat :=
  match nth_error mem p with
  | None => None
  | Some b =>
      if is_cont b then match p with O => None | S p' => utf8_back mem p' end
      else Some p
  end.

(** lines 128-140: [operator--]. *)
Definition utf8_prev (mem : list Z) (len p : nat) : option nat :=
  if Nat.ltb len p
  then match len with O => None | S l => utf8_back mem l end
  else match p with O => None | S p' => utf8_back mem p' end.

Definition mojibake : Z := 65533.

(** lines 172-230: [operator*]. *)
Definition utf8_get (mem : list Z) (len p : nat) : option Z :=
  match nth_error mem p with
  | None => None
  | Some b0 =>
      if Z.land b0 128 =? 0 then Some b0
      else
        let length := utf8_extra b0 in
        if length =? 0 then Some mojibake
        else if Nat.leb len (p + Z.to_nat length) then Some mojibake
        else match nth_error mem (p + 1) with
        | None => None
        | Some b1 =>
            if negb (is_cont b1) then Some mojibake
            else
              let mask := Z.shiftr 63 length in
              let result := Z.lor (Z.shiftl (Z.land b0 mask) 6) (Z.land b1 63) in
              if length =? 1 then Some result
              else match nth_error mem (p + 2) with
              | None => None
              | Some b2 =>
                  if negb (is_cont b2) then Some mojibake
                  else
                    let result := Z.lor (Z.shiftl result 6) (Z.land b2 63) in
                    if length =? 2 then Some result
                    else match nth_error mem (p + 3) with
                    | None => None
                    | Some b3 =>
                        if negb (is_cont b3) then Some mojibake
                        else Some (Z.lor (Z.shiftl result 6) (Z.land b3 63))
                    end
              end
        end
  end.
