(* src/groups.hh:39-121 and src/groups.cc:63-228: blocks, group types and groups. *)
From Coq Require Import SpecFloat.
From Verif.Model Require Import Base Util.

(* src/groups.hh:40  eBlockNumber *)
Inductive blockNumber : Set := BLOCK1 | BLOCK2 | BLOCK3 | BLOCK4.

Definition blockNumber_N (b : blockNumber) : N :=
  match b with BLOCK1 => 0 | BLOCK2 => 1 | BLOCK3 => 2 | BLOCK4 => 3 end.

Definition blockNumber_eqb (a b : blockNumber) : bool := blockNumber_N a =? blockNumber_N b.

(* src/groups.hh:42  enum class Offset *)
Inductive Offset : Set := OffA | OffB | OffC | OffCprime | OffD | OffInvalid.

Definition Offset_eqb (a b : Offset) : bool :=
  match a, b with
  | OffA, OffA | OffB, OffB | OffC, OffC | OffCprime, OffCprime | OffD, OffD
  | OffInvalid, OffInvalid => true
  | _, _ => false
  end.

(* src/groups.hh:44-51  Block *)
Record Block := mkBlock {
  blk_raw : N;
  blk_data : N;
  blk_is_received : bool;
  blk_had_errors : bool;
  blk_offset : Offset
}.
Definition Block_default : Block := mkBlock 0 0 false false OffInvalid.

(* src/groups.hh:53-64  GroupType *)
Inductive Version : Set := VA | VB | VC.
Definition Version_eqb (a b : Version) : bool :=
  match a, b with VA, VA | VB, VB | VC, VC => true | _, _ => false end.

Record GroupType := mkGroupType { gt_number : N; gt_version : Version }.
Definition GroupType_default : GroupType := mkGroupType 0 VA.

(* src/groups.cc:63-65  GroupType::GroupType *)
Definition GroupType_of (type_code : N) : GroupType :=
  mkGroupType (N.land (N.shiftr type_code 1) 0xF)
              (if N.land type_code 1 =? 0 then VA else VB).

(* src/groups.cc:67-71  GroupType::str *)
Definition GroupType_str (t : GroupType) : bytes :=
  match gt_version t with
  | VC => bs "C"
  | VA => dec_string (gt_number t) ++ bs "A"
  | VB => dec_string (gt_number t) ++ bs "B"
  end.

(* src/groups.cc:73-75  operator== *)
Definition GroupType_eqb (a b : GroupType) : bool :=
  (gt_number a =? gt_number b) && Version_eqb (gt_version a) (gt_version b).

(* src/groups.hh:83-121  Group.  The std::array<Block,4> indexed by the four-valued enum
   eBlockNumber is a record of four blocks.  Time points are integers (clock ticks);
   bler_ is an IEEE binary32 value. *)
Record Group := mkGroup {
  g_type : GroupType;
  g_b1 : Block; g_b2 : Block; g_b3 : Block; g_b4 : Block;
  g_time_received : Z;
  g_bler : spec_float;
  g_data_stream : N;
  g_has_type : bool;
  g_has_c_prime : bool;
  g_has_bler : bool;
  g_has_time : bool;
  g_no_offsets : bool
}.

Definition Group_default : Group :=
  mkGroup GroupType_default Block_default Block_default Block_default Block_default
          0 (S754_zero false) 0 false false false false false.

Definition g_block (g : Group) (b : blockNumber) : Block :=
  match b with BLOCK1 => g_b1 g | BLOCK2 => g_b2 g | BLOCK3 => g_b3 g | BLOCK4 => g_b4 g end.

Definition g_put_block (g : Group) (n : blockNumber) (b : Block) : Group :=
  match n with
  | BLOCK1 => mkGroup (g_type g) b (g_b2 g) (g_b3 g) (g_b4 g) (g_time_received g) (g_bler g)
      (g_data_stream g) (g_has_type g) (g_has_c_prime g) (g_has_bler g) (g_has_time g) (g_no_offsets g)
  | BLOCK2 => mkGroup (g_type g) (g_b1 g) b (g_b3 g) (g_b4 g) (g_time_received g) (g_bler g)
      (g_data_stream g) (g_has_type g) (g_has_c_prime g) (g_has_bler g) (g_has_time g) (g_no_offsets g)
  | BLOCK3 => mkGroup (g_type g) (g_b1 g) (g_b2 g) b (g_b4 g) (g_time_received g) (g_bler g)
      (g_data_stream g) (g_has_type g) (g_has_c_prime g) (g_has_bler g) (g_has_time g) (g_no_offsets g)
  | BLOCK4 => mkGroup (g_type g) (g_b1 g) (g_b2 g) (g_b3 g) b (g_time_received g) (g_bler g)
      (g_data_stream g) (g_has_type g) (g_has_c_prime g) (g_has_bler g) (g_has_time g) (g_no_offsets g)
  end.

Definition g_put_type (g : Group) (t : GroupType) (has : bool) : Group :=
  mkGroup t (g_b1 g) (g_b2 g) (g_b3 g) (g_b4 g) (g_time_received g) (g_bler g) (g_data_stream g)
          has (g_has_c_prime g) (g_has_bler g) (g_has_time g) (g_no_offsets g).

(* src/groups.cc:82-84  Group::get *)
Definition g_get (g : Group) (n : blockNumber) : N := blk_data (g_block g n).

(* src/groups.cc:86-88  Group::has *)
Definition g_has (g : Group) (n : blockNumber) : bool := blk_is_received (g_block g n).

(* src/groups.cc:90-92  Group::isEmpty *)
Definition g_isEmpty (g : Group) : bool :=
  negb (g_has g BLOCK1 || g_has g BLOCK2 || g_has g BLOCK3 || g_has g BLOCK4).

(* src/groups.cc:95-102  Group::getPI *)
Definition g_getPI (g : Group) : N :=
  if blk_is_received (g_b1 g) then blk_data (g_b1 g)
  else if blk_is_received (g_b3 g) && Offset_eqb (blk_offset (g_b3 g)) OffCprime
       then blk_data (g_b3 g)
       else 0.

(* src/groups.cc:110-114  Group::getNumErrors *)
Definition blk_error_count (b : Block) : N :=
  if blk_had_errors b || negb (blk_is_received b) then 1 else 0.
Definition g_getNumErrors (g : Group) : N :=
  blk_error_count (g_b1 g) + blk_error_count (g_b2 g) + blk_error_count (g_b3 g) +
  blk_error_count (g_b4 g).

(* src/groups.cc:116-120  Group::hasPI *)
Definition g_hasPI (g : Group) : bool :=
  negb (Version_eqb (gt_version (g_type g)) VC) &&
  (blk_is_received (g_b1 g) ||
   (blk_is_received (g_b3 g) && Offset_eqb (blk_offset (g_b3 g)) OffCprime)).

(* src/groups.cc:142-144  Group::disableOffsets *)
Definition g_disableOffsets (g : Group) : Group :=
  mkGroup (g_type g) (g_b1 g) (g_b2 g) (g_b3 g) (g_b4 g) (g_time_received g) (g_bler g)
          (g_data_stream g) (g_has_type g) (g_has_c_prime g) (g_has_bler g) (g_has_time g) true.

(* src/groups.cc:146-149  Group::setVersionC *)
Definition g_setVersionC (g : Group) : Group :=
  g_put_type g (mkGroupType (gt_number (g_type g)) VC) true.

(* src/groups.cc:151-153  Group::setDataStream *)
Definition g_setDataStream (g : Group) (stream : N) : Group :=
  mkGroup (g_type g) (g_b1 g) (g_b2 g) (g_b3 g) (g_b4 g) (g_time_received g) (g_bler g)
          stream (g_has_type g) (g_has_c_prime g) (g_has_bler g) (g_has_time g) (g_no_offsets g).

(* src/groups.cc:159-186  Group::setBlock *)
Definition g_setBlock (g0 : Group) (n : blockNumber) (block : Block) : Group :=
  let g := g_put_block g0 n block in
  if g_has_type g then g
  else
    let g1 :=
      match n with
      | BLOCK2 =>
        let t := GroupType_of (getBits 5 (blk_data block) 11) in
        match gt_version t with
        | VA => g_put_type g t true
        | _ => g_put_type g t (g_has_c_prime g || g_no_offsets g)
        end
      | BLOCK4 =>
        if g_has_c_prime g && negb (g_has_type g) then
          let t := GroupType_of (getBits 5 (blk_data block) 11) in
          if (gt_number t =? 15) && Version_eqb (gt_version t) VB then g_put_type g t true else g
        else g
      | _ => g
      end in
    if Offset_eqb (blk_offset block) OffCprime && g_has g1 BLOCK2
    then g_put_type g1 (g_type g1) (Version_eqb (gt_version (g_type g1)) VB)
    else g1.

(* src/groups.cc:188-191  Group::setTime *)
Definition g_setTime (g : Group) (t : Z) : Group :=
  mkGroup (g_type g) (g_b1 g) (g_b2 g) (g_b3 g) (g_b4 g) t (g_bler g)
          (g_data_stream g) (g_has_type g) (g_has_c_prime g) (g_has_bler g) true (g_no_offsets g).

(* src/groups.cc:194-197  Group::setAverageBLER *)
Definition g_setAverageBLER (g : Group) (bler : spec_float) : Group :=
  mkGroup (g_type g) (g_b1 g) (g_b2 g) (g_b3 g) (g_b4 g) (g_time_received g) bler
          (g_data_stream g) (g_has_type g) (g_has_c_prime g) true (g_has_time g) (g_no_offsets g).

(* src/groups.cc:206-228  Group::printHex (setw(4), uppercase hex, fill '0') *)
Definition blk_hex (b : Block) : bytes :=
  if blk_is_received b then getHexString 4 (blk_data b) else bs "----".
Definition g_printHex (g : Group) : bytes :=
  blk_hex (g_b1 g) ++ [32] ++ blk_hex (g_b2 g) ++ [32] ++ blk_hex (g_b3 g) ++ [32] ++
  blk_hex (g_b4 g).
