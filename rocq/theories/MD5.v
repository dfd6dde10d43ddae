(** Executable MD5 (RFC 1321): models Python's [hashlib.md5(b).hexdigest()], used in
    /repo/feedx/experiment_design.py:155-157 and 356-358.  Bytes are [N] below 256. *)
From Coq Require Import NArith ZArith List String Ascii Bool.
Import ListNotations.
Open Scope N_scope.

Definition w32 (x : N) : N := N.land x 4294967295.
Definition rotl (x s : N) : N :=
  w32 (N.lor (N.shiftl x s) (N.shiftr x (32 - s))).
Definition not32 (x : N) : N := N.lxor x 4294967295.

Definition md5_K : list N :=
[3614090360; 3905402710; 606105819; 3250441966; 4118548399; 1200080426; 2821735955; 4249261313; 1770035416; 2336552879; 4294925233; 2304563134; 1804603682; 4254626195; 2792965006; 1236535329; 4129170786; 3225465664; 643717713; 3921069994; 3593408605; 38016083; 3634488961; 3889429448; 568446438; 3275163606; 4107603335; 1163531501; 2850285829; 4243563512; 1735328473; 2368359562; 4294588738; 2272392833; 1839030562; 4259657740; 2763975236; 1272893353; 4139469664; 3200236656; 681279174; 3936430074; 3572445317; 76029189; 3654602809; 3873151461; 530742520; 3299628645; 4096336452; 1126891415; 2878612391; 4237533241; 1700485571; 2399980690; 4293915773; 2240044497; 1873313359; 4264355552; 2734768916; 1309151649; 4149444226; 3174756917; 718787259; 3951481745].

Definition md5_s : list N :=
 [7;12;17;22;7;12;17;22;7;12;17;22;7;12;17;22;
  5;9;14;20;5;9;14;20;5;9;14;20;5;9;14;20;
  4;11;16;23;4;11;16;23;4;11;16;23;4;11;16;23;
  6;10;15;21;6;10;15;21;6;10;15;21;6;10;15;21].

Definition state := (N * N * N * N)%type.

(** one of the 64 steps: round constant k, shift s, step number i *)
Definition md5_step (m : list N) (st : state) (i : nat) : state :=
  let '(a, b, c, d) := st in
  let '(f, g) :=
    if Nat.ltb i 16 then (N.lor (N.land b c) (N.land (not32 b) d), i)
    else if Nat.ltb i 32 then (N.lor (N.land d b) (N.land (not32 d) c), Nat.modulo (5 * i + 1) 16)
    else if Nat.ltb i 48 then (N.lxor b (N.lxor c d), Nat.modulo (3 * i + 5) 16)
    else (N.lxor c (N.lor b (not32 d)), Nat.modulo (7 * i) 16) in
  let f' := w32 (f + a + nth i md5_K 0 + nth g m 0) in
  (d, w32 (b + rotl f' (nth i md5_s 0)), b, c).

Definition md5_block (st : state) (m : list N) : state :=
  let '(a, b, c, d) := st in
  let '(a', b', c', d') := fold_left (md5_step m) (seq 0 64) st in
  (w32 (a + a'), w32 (b + b'), w32 (c + c'), w32 (d + d')).

Definition le_bytes (k : nat) (x : N) : list N :=
  map (fun i => N.land (N.shiftr x (8 * N.of_nat i)) 255) (seq 0 k).

Definition pad (l : list N) : list N :=
  let n := List.length l in
  let z := Nat.modulo (64 - Nat.modulo (n + 9) 64) 64 in
  l ++ [128] ++ repeat 0 z ++ le_bytes 8 (8 * N.of_nat n).

Fixpoint words (l : list N) : list N :=
  match l with
  | a :: b :: c :: d :: r => (a + 256 * b + 65536 * c + 16777216 * d) :: words r
  | _ => []
  end.

Fixpoint blocks (fuel : nat) (l : list N) (st : state) : state :=
  match fuel with
  | O => st
  | S fuel' =>
      match l with
      | [] => st
      | _ => blocks fuel' (skipn 16 l) (md5_block st (firstn 16 l))
      end
  end.

(** digest bytes, 16 of them *)
Definition md5_bytes (l : list N) : list N :=
  let ws := words (pad l) in
  let '(a, b, c, d) :=
    blocks (List.length ws) ws (1732584193, 4023233417, 2562383102, 271733878) in
  le_bytes 4 a ++ le_bytes 4 b ++ le_bytes 4 c ++ le_bytes 4 d.

Definition hex_char (x : N) : ascii :=
  ascii_of_N (if x <? 10 then 48 + x else 87 + x).

Definition hex_byte (x : N) : string :=
  String (hex_char (x / 16)) (String (hex_char (x mod 16)) EmptyString).

(** bytes.hex() *)
Definition hex_of_bytes (l : list N) : string :=
  fold_right (fun x s => append (hex_byte x) s) EmptyString l.

Definition bytes_of_string (s : string) : list N :=
  map N_of_ascii (list_ascii_of_string s).

(** hashlib.md5(s.encode("utf-8")).hexdigest(); a Coq [string] is the UTF-8 byte string *)
Definition md5_hexdigest (s : string) : string :=
  hex_of_bytes (md5_bytes (bytes_of_string s)).

(** value of a hexadecimal digit *)
Definition hex_val (c : ascii) : N :=
  let x := N_of_ascii c in if x <? 58 then x - 48 else x - 87.

(** Python [int(s, 16)] on a lower case hexadecimal string *)
Definition int_of_hex (s : string) : N :=
  fold_left (fun acc c => 16 * acc + hex_val c) (list_ascii_of_string s) 0.

Local Open Scope string_scope.
(** RFC 1321 test vectors (tests of the model, not proofs of a property) *)
Example md5_empty : md5_hexdigest "" = "d41d8cd98f00b204e9800998ecf8427e".
Proof. vm_compute. reflexivity. Qed.
Example md5_abc : md5_hexdigest "abc" = "900150983cd24fb0d6963f7d28e17f72".
Proof. vm_compute. reflexivity. Qed.
Example md5_alphabet : md5_hexdigest "abcdefghijklmnopqrstuvwxyz" = "c3fcd3d76192e4007dfb496cca67e13b".
Proof. vm_compute. reflexivity. Qed.
Example md5_long :
  md5_hexdigest "12345678901234567890123456789012345678901234567890123456789012345678901234567890"
  = "57edf4a22be3c955ac49da2e2107b67a".
Proof. vm_compute. reflexivity. Qed.
