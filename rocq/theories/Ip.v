(** * Ip: the part of Python's [ipaddress] module that the converters call
    ([ip_interface], [ip_network], [str] of the results).  Nothing here models
    code in /repo; it belongs to the modelled Python runtime (read from CPython
    3.11, Lib/ipaddress.py; the line numbers are of that file).
    Simplification: IPv6 scope ids (a percent sign in the address) are rejected. *)
From Coq Require Import NArith.
From Verif Require Import PyBase.

(** ** IPv4 *)

(** ipaddress.py:1214-1248 [_parse_octet] *)
Definition parse_octet (s : string) : option N :=
  if String.eqb s EmptyString || negb (sforall is_digit s) || (3 <? String.length s)%nat then None
  else if negb (String.eqb s "0") && startswith "0" s then None
  else match parse_digits s 0 false with
       | Some n => if (n <=? 255)%N then Some n else None
       | None => None
       end.
(** ipaddress.py:1188-1212 [_ip_int_from_string] *)
Definition parse_ipv4 (s : string) : option N :=
  match split_char "." s with
  | [a; b; c; d] =>
      match parse_octet a, parse_octet b, parse_octet c, parse_octet d with
      | Some a, Some b, Some c, Some d => Some (((a * 256 + b) * 256 + c) * 256 + d)%N
      | _, _, _, _ => None
      end
  | _ => None
  end.
(** ipaddress.py:1250-1260 *)
Definition octet (n : N) (k : N) : N := ((n / 256 ^ k) mod 256)%N.
Definition print_ipv4 (n : N) : string :=
  join "." [string_of_N (octet n 3); string_of_N (octet n 2); string_of_N (octet n 1); string_of_N (octet n 0)].

(** ipaddress.py:432-443 [_ip_int_from_prefix], [w] the number of bits *)
Definition mask_of (w p : N) : N := (2 ^ w - 2 ^ (w - p))%N.
(** ipaddress.py:475-498 [_prefix_from_prefix_string] *)
Definition prefix_of_digits (w : N) (s : string) : option N :=
  if negb (sforall is_digit s) then None
  else match parse_digits s 0 false with
       | Some n => if (n <=? w)%N then Some n else None
       | None => None
       end.
(** ipaddress.py:445-468 [_prefix_from_ip_int]: the prefix length whose mask is
    this number, if there is one. *)
Fixpoint find_prefix (fuel : nat) (mask : N) : option N :=
  if (mask_of 32 (N.of_nat fuel) =? mask)%N then Some (N.of_nat fuel)
  else match fuel with O => None | S f => find_prefix f mask end.
Definition prefix_of_mask (mask : N) : option N := find_prefix 32 mask.
(** ipaddress.py:500-532 [_prefix_from_ip_string]: netmask, else hostmask *)
Definition prefix_of_ip (s : string) : option N :=
  match parse_ipv4 s with
  | None => None
  | Some m => match prefix_of_mask m with
              | Some p => Some p
              | None => prefix_of_mask (2 ^ 32 - 1 - m)%N
              end
  end.
(** ipaddress.py:1162-1186 *)
Definition parse_prefix4 (s : string) : option N :=
  match prefix_of_digits 32 s with Some p => Some p | None => prefix_of_ip s end.

(** ** IPv6 *)

Definition hex_val (c : ascii) : option N :=
  let n := N_of_ascii c in
  if is_digit c then Some (n - 48)%N
  else if ((97 <=? n) && (n <=? 102))%N then Some (n - 87)%N
  else if ((65 <=? n) && (n <=? 70))%N then Some (n - 55)%N
  else None.
Fixpoint parse_hex (s : string) (acc : N) : option N :=
  match s with
  | EmptyString => Some acc
  | String c s' => match hex_val c with Some v => parse_hex s' (acc * 16 + v)%N | None => None end
  end.
(** ipaddress.py:1756-1780 [_parse_hextet]; the empty string fails in [int] *)
Definition parse_hextet (s : string) : option N :=
  if String.eqb s EmptyString || (4 <? String.length s)%nat then None else parse_hex s 0.
Definition hex_char (n : N) : ascii := ascii_of_N (if (n <? 10)%N then 48 + n else 87 + n)%N.
(** ['%x' % n] for n < 65536 *)
Definition print_hex (n : N) : string :=
  let d k := String (hex_char ((n / 16 ^ k) mod 16)%N) EmptyString in
  if (n <? 16)%N then d 0%N
  else if (n <? 256)%N then d 1%N +++ d 0%N
  else if (n <? 4096)%N then d 2%N +++ d 1%N +++ d 0%N
  else d 3%N +++ d 2%N +++ d 1%N +++ d 0%N.
(** Eight groups of 16 bits *)
Definition hextet (n k : N) : N := ((n / 65536 ^ k) mod 65536)%N.
Definition hextets (n : N) : list N := map (hextet n) [7; 6; 5; 4; 3; 2; 1; 0]%N.
Definition of_hextets (hs : list N) : N := fold_left (fun acc h => acc * 65536 + h)%N hs 0%N.

(** ipaddress.py:1797-1817, the search of the longest run of zeros: best start
    and length, current start and length. *)
Fixpoint best_run (hs : list string) (i bs bl cs cl : nat) : nat * nat :=
  match hs with
  | [] => (bs, bl)
  | h :: t =>
      if String.eqb h "0" then
        let cs' := if (cl =? 0)%nat then i else cs in
        let cl' := S cl in
        if (bl <? cl')%nat then best_run t (S i) cs' cl' cs' cl' else best_run t (S i) bs bl cs' cl'
      else best_run t (S i) bs bl O O
  end.
(** ipaddress.py:1782-1828 [_compress_hextets] *)
Definition compress (hs : list string) : list string :=
  let (bs, bl) := best_run hs 0 0 0 0 0 in
  if (1 <? bl)%nat then
    (if (bs =? 0)%nat then [EmptyString] else []) ++ firstn bs hs ++ [EmptyString]
    ++ skipn (bs + bl) hs ++ (if (bs + bl =? length hs)%nat then [EmptyString] else [])
  else hs.
(** ipaddress.py:1830-1853 *)
Definition print_ipv6 (n : N) : string := join ":" (compress (map print_hex (hextets n))).

Fixpoint empties (i : nat) (l : list string) : list nat :=
  match l with
  | [] => []
  | s :: t => if String.eqb s EmptyString then i :: empties (S i) t else empties (S i) t
  end.
Fixpoint mapO {A B} (f : A -> option B) (l : list A) : option (list B) :=
  match l with
  | [] => Some []
  | x :: t => match f x, mapO f t with Some y, Some r => Some (y :: r) | _, _ => None end
  end.
Definition nth_empty (i : nat) (l : list string) : bool :=
  match nth_error l i with Some s => String.eqb s EmptyString | None => false end.
(** ipaddress.py:1688-1754: from the parts to the number *)
Definition parse_parts (parts : list string) : option N :=
  let len := length parts in
  if (9 <? len)%nat then None
  else
    match empties 1 (removelast (tl parts)) with
    | [] =>
        if (len =? 8)%nat && negb (nth_empty 0 parts) && negb (nth_empty (len - 1) parts)
        then option_map of_hextets (mapO parse_hextet parts)
        else None
    | [skip] =>
        let first := nth_empty 0 parts in
        let last := nth_empty (len - 1) parts in
        let hi := if first then (skip - 1)%nat else skip in
        let lo := if last then (len - skip - 2)%nat else (len - skip - 1)%nat in
        if first && negb (hi =? 0)%nat || last && negb (lo =? 0)%nat || (7 <? hi + lo)%nat then None
        else match mapO parse_hextet (firstn hi parts), mapO parse_hextet (skipn (len - lo) parts) with
             | Some a, Some b => Some (of_hextets (a ++ repeat 0%N (8 - (hi + lo)) ++ b))
             | _, _ => None
             end
    | _ => None
    end.
(** ipaddress.py:1652-1754 [_ip_int_from_string], with the IPv4 suffix *)
Definition parse_ipv6 (s : string) : option N :=
  let parts := split_char ":" s in
  if (length parts <? 3)%nat then None
  else
    let lastp := last parts EmptyString in
    if contains "." lastp then
      match parse_ipv4 lastp with
      | Some v => parse_parts (removelast parts ++ [print_hex (v / 65536)%N; print_hex (v mod 65536)%N])
      | None => None
      end
    else parse_parts parts.

(** ** Interfaces and networks *)

(** An address with a prefix length *)
Record ipif := { ip_six : bool; ip_addr : N; ip_len : N }.
Definition width (six : bool) : N := if six then 128%N else 32%N.
Definition print_addr (six : bool) (n : N) : string := if six then print_ipv6 n else print_ipv4 n.

(** ipaddress.py:534-555, 1422-1429, 2152-2159: [ip_interface(s)]; [None] is
    ValueError. *)
Definition ip_interface (s : string) : option ipif :=
  match split_char "/" s with
  | [a] =>
      match parse_ipv4 a with
      | Some n => Some {| ip_six := false; ip_addr := n; ip_len := 32 |}
      | None => match parse_ipv6 a with
                | Some n => Some {| ip_six := true; ip_addr := n; ip_len := 128 |}
                | None => None
                end
      end
  | [a; m] =>
      match parse_ipv4 a, parse_prefix4 m with
      | Some n, Some p => Some {| ip_six := false; ip_addr := n; ip_len := p |}
      | _, _ => match parse_ipv6 a, prefix_of_digits 128 m with
                | Some n, Some p => Some {| ip_six := true; ip_addr := n; ip_len := p |}
                | _, _ => None
                end
      end
  | _ => None
  end.
(** [str(i.ip)], [str(i)], [str(i.netmask)], [str(i.network)] *)
Definition if_ip (i : ipif) : string := print_addr (ip_six i) (ip_addr i).
Definition if_str (i : ipif) : string := if_ip i +++ "/" +++ string_of_N (ip_len i).
Definition if_netmask (i : ipif) : string := print_addr (ip_six i) (mask_of (width (ip_six i)) (ip_len i)).
Definition net_addr (i : ipif) : N :=
  let h := (2 ^ (width (ip_six i) - ip_len i))%N in (ip_addr i / h * h)%N.
Definition if_network (i : ipif) : string :=
  print_addr (ip_six i) (net_addr i) +++ "/" +++ string_of_N (ip_len i).
(** ipaddress.py:57-83: [ip_network(s)] also rejects host bits (ValueError) *)
Definition ip_network (s : string) : option ipif :=
  match ip_interface s with
  | Some i => if (net_addr i =? ip_addr i)%N then Some i else None
  | None => None
  end.
