(** Inflate.v -- executable stand-ins for library code that the model leaves
    abstract (the record env): compress/zlib, compress/lzw and
    golang.org/x/image/tiff/lzw.  They are used by the tests in UnitTests.v and
    by no theorem. *)
From Verif Require Import Base.
From Coq Require Import Strings.String.

(** the bits of the data, least significant bit of each byte first *)
Definition bits_of (b : byte) : list bool := map (fun i => Z.testbit (bv b) (Z.of_nat i)) (seq 0 8).
Definition bits_lsb (l : bytes) : list bool := flat_map bits_of l.
(** most significant bit first *)
Definition bits_msb (l : bytes) : list bool := flat_map (fun b => rev (bits_of b)) l.
(** [n] bits as a number, the first bit being the least significant one *)
Fixpoint take_lsb (n : nat) (l : list bool) : option (Z * list bool) :=
  match n with
  | O => Some (0, l)
  | S n' => match l with
            | [] => None
            | b :: r => match take_lsb n' r with Some (v, r') => Some ((if b then 1 else 0) + 2 * v, r') | None => None end
            end
  end.
Fixpoint take_msb (n : nat) (v : Z) (l : list bool) : option (Z * list bool) :=
  match n with
  | O => Some (v, l)
  | S n' => match l with [] => None | b :: r => take_msb n' (2 * v + (if b then 1 else 0)) r end
  end.

(** ** Deflate (RFC 1951) *)
(** the symbols with a code of length n, for n = 1 .. 15 *)
Definition huffman (lens : list Z) : list (list Z) :=
  map (fun n => map fst (filter (fun p => snd p =? Z.of_nat n) (combine (map Z.of_nat (seq 0 (List.length lens))) lens))) (seq 1 15).
Fixpoint decode_symbol (h : list (list Z)) (code first : Z) (l : list bool) : option (Z * list bool) :=
  match h, l with
  | syms :: h', b :: r =>
      let code := 2 * code + (if b then 1 else 0) in
      let first := 2 * first in
      let n := Z.of_nat (List.length syms) in
      if code - first <? n then Some (nth (Z.to_nat (code - first)) syms 0, r)
      else decode_symbol h' (code) (first + n) r
  | _, _ => None
  end.
Definition len_base : list Z := [3;4;5;6;7;8;9;10;11;13;15;17;19;23;27;31;35;43;51;59;67;83;99;115;131;163;195;227;258].
Definition len_extra : list nat := [0;0;0;0;0;0;0;0;1;1;1;1;2;2;2;2;3;3;3;3;4;4;4;4;5;5;5;5;0]%nat.
Definition dist_base : list Z := [1;2;3;4;5;7;9;13;17;25;33;49;65;97;129;193;257;385;513;769;1025;1537;2049;3073;4097;6145;8193;12289;16385;24577].
Definition dist_extra : list nat := [0;0;0;0;1;1;2;2;3;3;4;4;5;5;6;6;7;7;8;8;9;9;10;10;11;11;12;12;13;13]%nat.
(** [out] is the output, last byte first *)
Fixpoint copy_back (n : nat) (dist : nat) (out : bytes) : option bytes :=
  match n with
  | O => Some out
  | S n' => match nth_error out (dist - 1) with Some b => copy_back n' dist (b :: out) | None => None end
  end.
(** one block with codes [lh] and [dh]; the flag says whether it was complete *)
Fixpoint block (fuel : nat) (lh dh : list (list Z)) (l : list bool) (out : bytes) : bytes * option (list bool) :=
  match fuel with
  | O => (out, None)
  | S f =>
      match decode_symbol lh 0 0 l with
      | None => (out, None)
      | Some (s, l) =>
          if s <? 256 then block f lh dh l (zb s :: out)
          else if s =? 256 then (out, Some l)
          else
            let k := Z.to_nat (s - 257) in
            match nth_error len_base k, take_lsb (nth k len_extra 0%nat) l with
            | Some n, Some (x, l) =>
                match decode_symbol dh 0 0 l with
                | None => (out, None)
                | Some (ds, l) =>
                    match nth_error dist_base (Z.to_nat ds), take_lsb (nth (Z.to_nat ds) dist_extra 0%nat) l with
                    | Some d, Some (y, l) =>
                        match copy_back (Z.to_nat (n + x)) (Z.to_nat (d + y)) out with
                        | Some out => block f lh dh l out
                        | None => (out, None)
                        end
                    | _, _ => (out, None)
                    end
                end
            | _, _ => (out, None)
            end
      end
  end.
Definition fixed_lens : list Z := repeat 8 144 ++ repeat 9 112 ++ repeat 7 24 ++ repeat 8 8.
Definition cl_order : list nat := [16;17;18;0;8;7;9;6;10;5;11;4;12;3;13;2;14;1;15]%nat.
Fixpoint take_many (k : nat) (n : nat) (l : list bool) : option (list Z * list bool) :=
  match k with
  | O => Some ([], l)
  | S k' => match take_lsb n l with
            | None => None
            | Some (v, l) => match take_many k' n l with Some (vs, l) => Some (v :: vs, l) | None => None end
            end
  end.
(** the code lengths of a dynamic block; [acc] is reversed *)
Fixpoint code_lens (fuel : nat) (h : list (list Z)) (want : nat) (l : list bool) (acc : list Z) : option (list Z * list bool) :=
  match fuel with
  | O => None
  | S f =>
      if Nat.leb want (List.length acc) then Some (rev acc, l) else
      match decode_symbol h 0 0 l with
      | None => None
      | Some (s, l) =>
          if s <? 16 then code_lens f h want l (s :: acc)
          else
            let '(bits, base, v) := if s =? 16 then (2%nat, 3, hd 0 acc) else if s =? 17 then (3%nat, 3, 0) else (7%nat, 11, 0) in
            match take_lsb bits l with
            | None => None
            | Some (x, l) => code_lens f h want l (repeat v (Z.to_nat (base + x)) ++ acc)
            end
      end
  end.
Definition dynamic (l : list bool) : option (list (list Z) * list (list Z) * list bool) :=
  match take_lsb 5 l with None => None | Some (hl, l) =>
  match take_lsb 5 l with None => None | Some (hd, l) =>
  match take_lsb 4 l with None => None | Some (hc, l) =>
  match take_many (Z.to_nat (hc + 4)) 3 l with None => None | Some (cl, l) =>
  let lens := map (fun i => match find (fun p => Nat.eqb (fst p) i) (combine cl_order cl) with Some p => snd p | None => 0 end) (seq 0 19) in
  let nl := Z.to_nat (hl + 257) in
  let nd := Z.to_nat (hd + 1) in
  match code_lens (S (nl + nd)) (huffman lens) (nl + nd) l [] with None => None | Some (ls, l) =>
  Some (huffman (firstn nl ls), huffman (skipn nl ls), l)
  end end end end end.
(** all blocks; [pad] is the number of bits read so far modulo 8 *)
Fixpoint inflate (fuel : nat) (total : nat) (l : list bool) (out : bytes) : bytes * option (list bool) :=
  match fuel with
  | O => (out, None)
  | S f =>
      match take_lsb 1 l with None => (out, None) | Some (final, l) =>
      match take_lsb 2 l with None => (out, None) | Some (kind, l) =>
      let '(out, r) :=
        if kind =? 0 then
          let l := skipn (Nat.modulo (List.length l) 8) l in
          match take_lsb 16 l with None => (out, None) | Some (n, l) =>
          match take_lsb 16 l with None => (out, None) | Some (_, l) =>
          match take_many (Z.to_nat n) 8 l with None => (out, None) | Some (bs, l) => (rev (map zb bs) ++ out, Some l) end end end
        else if kind =? 1 then block total (huffman fixed_lens) (huffman (repeat 5 30)) l out
        else if kind =? 2 then match dynamic l with None => (out, None) | Some (lh, dh, l) => block total lh dh l out end
        else (out, None) in
      match r with
      | None => (out, None)
      | Some l => if final =? 1 then (out, Some l) else inflate f total l out
      end end end
  end.
(** zlib (RFC 1950): None when the header is wrong; the flag says that the data
    was incomplete or wrong *)
Definition adler32 (l : bytes) : Z :=
  let '(a, b) := fold_left (fun p x => let a := (fst p + bv x) mod 65521 in (a, (snd p + a) mod 65521)) l (1, 0) in b * 65536 + a.
Definition zlib_read (data : bytes) : option (bytes * bool) :=
  match data with
  | cmf :: flg :: rest =>
      if negb (Z.land (bv cmf) 15 =? 8) || negb ((256 * bv cmf + bv flg) mod 31 =? 0) || Z.testbit (bv flg) 5 then None
      else
        let bits := bits_lsb rest in
        let n := S (List.length bits) in
        let '(out, r) := inflate n n bits [] in
        let out := rev out in
        match r with
        | None => Some (out, true)
        | Some l =>
            let l := skipn (Nat.modulo (List.length l) 8) l in
            match take_many 4 8 l with
            | Some ([a; b; c; d], _) => Some (out, negb (((a * 256 + b) * 256 + c) * 256 + d =? adler32 out))
            | _ => Some (out, true)
            end
        end
  | _ => None
  end.

(** ** LZW, most significant bit first, literals of 8 bits.  [early] is 1 in
    tiff/lzw, where the width grows one code sooner, and 0 in compress/lzw.
    [tab] holds the strings of the codes from 258 on. *)
Fixpoint lzw_loop (fuel : nat) (early : Z) (width : nat) (hi : Z) (tab : list bytes) (prev : option bytes) (l : list bool) (out : bytes) : bytes * bool :=
  match fuel with
  | O => (out, true)
  | S f =>
      match take_msb width 0 l with
      | None => (out, true)
      | Some (c, l) =>
          if c =? 256 then lzw_loop f early 9 257 [] None l out
          else if c =? 257 then (out, false)
          else
            let s := if c <? 256 then Some [zb c]
                     else if c <? hi then nth_error tab (Z.to_nat (c - 258))
                     else if c =? hi then match prev with Some p => Some (p ++ firstn 1 p) | None => None end
                     else None in
            match s with
            | None => (out, true)
            | Some s =>
                let tab := match prev with Some p => if hi <? 4096 then tab ++ [p ++ firstn 1 s] else tab | None => tab end in
                let hi := hi + 1 in
                if Z.shiftl 1 (Z.of_nat width) <=? hi + early then
                  if Nat.eqb width 12 then lzw_loop f early width (hi - 1) tab None l (out ++ s)
                  else lzw_loop f early (S width) hi tab (Some s) l (out ++ s)
                else lzw_loop f early width hi tab (Some s) l (out ++ s)
            end
      end
  end.
Definition lzw_read (early : Z) (data : bytes) : bytes * bool :=
  let bits := bits_msb data in lzw_loop (S (List.length bits)) early 9 257 [] None bits [].
