(** The data of an image as bytes. *)
From Verif Require Import Base CellModel.

(** The crate base64 0.22 with [alphabet::STANDARD] and [general_purpose::NO_PAD]: encoding without padding; decoding takes no padding, no
    character that is not of the alphabet, and no bits that are left over and not zero. Bytes are numbers below 256. *)
Definition symbol (v : N) : char :=
  if v <? 26 then 65 + v else if v <? 52 then 97 + (v - 26) else if v <? 62 then 48 + (v - 52) else if v =? 62 then 43 else 47.
Definition symbol_value (c : char) : res N :=
  if (65 <=? c) && (c <=? 90) then Ok (c - 65) else if (97 <=? c) && (c <=? 122) then Ok (c - 97 + 26) else if (48 <=? c) && (c <=? 57) then Ok (c - 48 + 52)
  else if c =? 43 then Ok 62 else if c =? 47 then Ok 63 else Err.
Fixpoint encode (l : list N) : str :=
  match l with
  | [] => []
  | [a] => [symbol (a / 4); symbol (a mod 4 * 16)]
  | [a; b] => [symbol (a / 4); symbol (a mod 4 * 16 + b / 16); symbol (b mod 16 * 4)]
  | a :: b :: c :: r => symbol (a / 4) :: symbol (a mod 4 * 16 + b / 16) :: symbol (b mod 16 * 4 + c / 64) :: symbol (c mod 64) :: encode r
  end.
Fixpoint decode (t : str) : res (list N) :=
  match t with
  | [] => Ok []
  | [x] => Err
  | [x; y] => let* a := symbol_value x in let* b := symbol_value y in if b mod 16 =? 0 then Ok [a * 4 + b / 16] else Err
  | [x; y; z] => let* a := symbol_value x in let* b := symbol_value y in let* c := symbol_value z in
                 if c mod 4 =? 0 then Ok [a * 4 + b / 16; b mod 16 * 16 + c / 4] else Err
  | x :: y :: z :: w :: r => let* a := symbol_value x in let* b := symbol_value y in let* c := symbol_value z in let* d := symbol_value w in
                             let* l := decode r in Ok (a * 4 + b / 16 :: b mod 16 * 16 + c / 4 :: c mod 4 * 64 + d :: l)
  end.

(** draw.rs:373-412 [get_binary_base64], [set_binary_base64], [get_binary], [set_binary], [clear_binary]. *)
Definition get_binary_base64 (i : dimage) : option str := im_data i.
Definition set_binary_base64 (b : str) (i : dimage) : dimage := DImage (im_attrs i) (Some b) (im_text i).
Definition get_binary (i : dimage) : res (list N) := match im_data i with Some d => decode d | None => Ok [] end.
Definition set_binary (b : list N) (i : dimage) : dimage := DImage (im_attrs i) (Some (encode b)) (im_text i).
Definition clear_binary (i : dimage) : dimage := DImage (im_attrs i) None (im_text i).
