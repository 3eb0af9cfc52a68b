(** A stranger with nothing but two rents: the vocabulary of C83. *)
From stdpp Require Import gmap.
From Verif Require Import Base State Spec EffectSpec Ledger Program LedgerLemmas LedgerSpec HistoryThms CodecLemmas Clients History FreezeSpec.

(** What a stranger [A] brings along: a wallet able to pay two rents, a zeroed pool account [Q],
    any mint, and the derived vault [V] and mining [j], which do not exist yet.  No token. *)
Record purse (e : env) (L : ledger) (A Q mint V j : pubkey) : Prop := {
  pu_wallet : owner_of L A = system_id /\ data_len (data_of L A) = 0;
  pu_rent : rent_min e 165 + rent_min e 1776 <= lamports_of L A;
  pu_pool : is_pool e L Q (WPool (Pool 0 0 0 0 0 0 0 0 0 0) [] []);
  pu_mint : owner_of L mint = spl_token_id e /\ data_of L mint = DMint;
  pu_vault : fst (find_vault e Q mint) = V /\ lamports_of L V = 0 /\ owner_of L V = system_id /\ data_of L V = DEmpty;
  pu_mining : fst (find_mining e A Q) = j /\ lamports_of L j = 0 /\ owner_of L j = system_id /\ data_of L j = DEmpty;
  pu_apart : A <> V /\ A <> j;
  pu_key : is_key A }.

(** the three calls: a pool, a mining in it, and the strike on [k] *)
Definition three_calls (e : env) (ts : Z) (A Q mint V j k : pubkey) : list event :=
  let ev (c : list meta * ix) := EvIx ts (fst c) (snd c) in
  [ev (b_initialize_pool e Q mint V A A A A); ev (b_initialize_mining Q j A A);
   EvIx ts (strike_on Q j A A k) (ChangeDelegate 0 A)].
