(** What a reader of accounts is to see. *)
From Coq Require Import List.
From Verif Require Import Base OMap State Codec CodecLemmas Views.
Import ListNotations.

(** the client's view has every field of the program's; its [data] is the program's type tag
    and six bytes that the program does not use *)
Definition mining_seen (m : mining) (c : cmining) : Prop :=
  cm_pool c = m_pool m /\ cm_owner c = m_owner m /\ cm_mint c = m_mint m /\ cm_index c = m_index m /\
  cm_share c = m_share m /\ cm_unclaimed c = m_unclaimed m /\ cm_sfo c = m_sfo m /\ cm_bump c = m_bump m /\
  exists pad, length pad = 6%nat /\ cm_data c = m_type m :: pad.
Definition pool_seen (p : pool) (c : cpool) : Prop :=
  cp_deposit_auth c = p_deposit_auth p /\ cp_distribute_auth c = p_distribute_auth p /\
  cp_fill_auth c = p_fill_auth p /\ cp_mint c = p_mint p /\ cp_index c = p_index p /\
  cp_total c = p_total p /\ cp_ends_at c = p_ends_at p /\ cp_avail c = p_avail p /\ cp_bump c = p_bump p /\
  exists pad, length pad = 6%nat /\ cp_data c = p_type p :: pad.

(** what a search asks for, and the values that can be searched for *)
Definition mining_asks (f : mining_filter) (c : cmining) : Prop :=
  match f with
  | ByPool k => cm_pool c = k | ByOwner k => cm_owner c = k | ByMint k => cm_mint c = k
  | ByIndex x => cm_index c = x | ByShare x => cm_share c = x | ByUnclaimed x => cm_unclaimed c = x
  | ByOthers x => cm_sfo c = x | ByBump x => cm_bump c = x | ByData v => cm_data c = v
  end.
Definition mining_askable (f : mining_filter) : Prop :=
  match f with
  | ByPool k | ByOwner k | ByMint k => is_key k
  | ByIndex x => is_u128 x
  | ByShare x | ByUnclaimed x | ByOthers x => is_u64 x
  | ByBump x => is_u8 x
  | ByData v => length v = 7%nat
  end.
Definition pool_asks (f : pool_filter) (c : cpool) : Prop :=
  match f with
  | PByDepositAuth k => cp_deposit_auth c = k | PByDistributeAuth k => cp_distribute_auth c = k
  | PByFillAuth k => cp_fill_auth c = k | PByMint k => cp_mint c = k | PByIndex x => cp_index c = x
  | PByTotal x => cp_total c = x | PByEndsAt x => cp_ends_at c = x | PByAvail x => cp_avail c = x
  | PByBump x => cp_bump c = x | PByData v => cp_data c = v
  end.
Definition pool_askable (f : pool_filter) : Prop :=
  match f with
  | PByDepositAuth k | PByDistributeAuth k | PByFillAuth k | PByMint k => is_key k
  | PByIndex x => is_u128 x
  | PByTotal x | PByEndsAt x | PByAvail x => is_u64 x
  | PByBump x => is_u8 x
  | PByData v => length v = 7%nat
  end.
