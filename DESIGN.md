# Formal model of the marketplace contracts: design

Subject: the Rust sources in `/repo` (pinned commit), read as text only.
Target: a Coq 8.16.1 model in `rocq/theories` with machine-checked theorems for the properties in
`properties.jsonl`.  `MANIFEST.json` maps properties to theorem names (generated by `mkmanifest.py` from the
`*Properties.v` files and `manifest_notes.json`).  `seeded/LOG.jsonl` records the wrong programs the theorems were tested against.

How to read `seeded/LOG.jsonl`: `theorems_failed` names first the lemmas whose own proof scripts broke when the
edited model was rebuilt, then the theorems of the broken claim whose proofs rest on one of them, as listed by
`Print Opaque Dependencies` on the unedited development.  Such a theorem is no longer proved by its script; that
its statement is false of the edited model is argued from the edit, not checked by Coq.  In many runs the rebuild stopped at the first failing
files, so theorems further on were not rebuilt; a `note` says where this leaves the named claim unchecked.
Earlier versions of the log took dependents by unqualified lemma name.  Names such as `execute_effect` occur in
all three contracts, so those versions listed theorems of contracts the edit does not touch.  In five attempts
(u-01, u-02, u-03, u-14, t-16) the named claim counted as caught for that reason only.  All entries were
recomputed.  For u-03, u-14 and t-16 the named claim was replaced by one the edit does break; u-01, u-02 and
seven older attempts left unchecked were rebuilt up to the theorems of the named claim, which fail.

## 1. Layout (`rocq/theories`)

| files | contents |
|---|---|
| `Base`, `BaseFacts` | error monad, coins, `NativeBalance`, `has_coins`, cw-utils payment checks, `Decimal`, byte order on strings, big-endian bytes |
| `Common`, `SaleFacts` | `packages/sg-marketplace-common` (address, coin, nft, royalties, sale), the vocabulary of messages and query answers |
| `Chain`, `ChainFacts`, `Plain` | the chain: bank, NFT ledger, oracle data, atomic transactions, message dispatch, re-entrancy; generic in the contract |
| `IndexRange`, `IndexFacts`, `QuerySpec`, `IndexWalk` | index range scans, and what "sorted, complete, pageable" means |
| `V2Model` | `contracts/stargaze-marketplace-v2`, function by function |
| `V2Spec` | independent specifications for v2 (fee formulas, best price, escrow totals, custody, exact effects) |
| `V2Facts`, `V2Match`, `V2Inv`, `V2Sale`, `V2Trade`, `V2Reach`, `V2Book`, `V2Auth`, `V2Calls`, `V2Query`, `V2Live`, `V2More`, `V2Final` | lemmas |
| `V2ExactSpec`, `V2Exact`, `V2ExactProperties` | the order calls of v2 as a transition relation, case by case, and that the handlers are equivalent to it |
| `RAExactSpec`, `RAExact`, `RAExactProperties` | the same for all calls and block hooks of the reserve auction |
| `LedgerSpec`, `Ledger`; `RALedgerSpec`, `RALedger`, `RALedgerProperties`; `V2LedgerSpec`, `V2Ledger`, `V2LedgerProperties`; `V1LedgerSpec`, `V1Ledger`, `V1LedgerProperties` | books over whole histories: per person and denom, what came in, came back, was spent and is still held |
| `V1LocalSpec`, `V1Local`, `V1LocalProperties`; `RALocalSpec`, `RALocal`, `RALocalProperties`; `V2LocalSpec`, `V2Local`, `V2LocalProperties` | locality: what a call may look at and change, exchange of calls, sequences of calls with foreign calls left out |
| `V2HashSpec`, `V2Hash`, `V2HashOver`, `V2HashProperties` | which strings marketplace v2 hashes and which addresses it checks; transfer of all theorems to hashes and addresses that satisfy the assumptions only on these |
| `TxSpec`, `TxFacts`; `{V2,RA,V1}Tx`, `{V2,RA,V1}TxProperties` | when a transaction goes through on the executable chain, and every balance, owner and approval afterwards |
| `RAQueueSpec`, `RAQueue`, `RAQueueProperties` | the queue of due auctions: no starvation, and enough EndBlocks settle every auction |
| `JointSpec`, `Joint`; `ThreeSpec`, `Three`, `ThreeProperties` | several contracts on one chain, calling each other through foreign code; any number of instances of the three contracts |
| `NftBooksSpec`, `RANftSpec`, `RANft`, `V2NftSpec`, `V2Nft`, `{RA,V2}NftProperties` | the transfers ordered for an NFT over a whole history |
| `{V2,RA,V1}Locked`, `{V2,RA,V1}LockedProperties` | coins and NFTs beyond the books of a contract stay with it |
| `RoundingSpec`, `{V2,V1}Rounding`, `{V2,V1}RoundingProperties` | how far rounding moves the seller's share |
| `RABoundsSpec`, `RABounds`, `RABoundsProperties` | how many bids an auction can get and how long it can last |
| `WorkSpec`, `Work`, `V2Work`, `RAWork`, `V1Work`, `*WorkProperties` | how many messages a call can send and how many entries it can change |
| `AlikeSpec`, `Alike`, `*AlikeSpec`, `V2Alike`, `RAAlike`, `V1Alike`, `*AlikeProperties` | renaming the accounts commutes with every call |
| `*DrainSpec`, `V2Drain`, `RADrain`, `V1Drain`, `*DrainProperties` | everybody withdraws, in any order |
| `RARaceSpec`, `RARace`, `RARaceProperties` | several bids in one block, in any order |
| `V2PriceSpec`, `V2Price`, `V2PriceProperties` | the same order with another limit |
| `V2QuoteSpec`, `V2Quote`, `V2QuoteProperties`, `RAQuoteSpec`, `RAQuote`, `RAQuoteProperties` | first rows of the ordered queries and the next trade or block |
| `RAShieldSpec`, `RAShield`, `RAShieldProperties` | halts over whole histories: the windows on record, and the auctions that ended in one |
| `V2WaysSpec`, `V2Ways`, `V2WaysProperties` | the calls by which the same trade can be made, and that they do the same |
| `RABlockSpec`, `RABlock`, `RABlockProperties` | EndBlock as a sequence of settlements by users |
| `V2TieSpec`, `V2Tie`, `V2TieProperties` | ties between orders at equal prices |
| `V2Examples` | a concrete chain with reachable states; witnesses of refutations |
| `V2Properties` | the v2 theorems, each closed by `exact`, with `Print Assumptions` and a concrete case beside it |
| `RAEvents`, `RAEventSpec`, `RAEventFacts`, `RAEventProperties` | the same for reserve-auction: observer of auctions, minimum prices and settings; reports of settlements, postponements and bids |
| `V1Events`, `V1EventSpec`, `V1EventFacts`, `V1EventProperties` | the same for marketplace v1: observer of orders, operators and hooks; reports of sales and removals |
| `V1Pages`, `V1PageProperties` | exactly which rows each page of each v1 listing holds, for any offset |
| `Migrate`, `MigrateProperties` | the cw2 version record and `migrate` of the three contracts |
| `Storage`, `{V1,V2,RA}Storage`, `{V1,V2,RA}StorageProperties` | the key-value store below: byte layout of items, maps and indexes, and that each contract's store is the image of its state under writes and reads |
| `Events`, `EventFacts`, `V2Events`, `V2EventSpec`, `V2EventFacts`, `V2EventProperties` | the events of v2 responses, an observer that rebuilds the order book from them, the report of a sale |
| `RA*` | the same for `contracts/reserve-auction` (`RAModel`, `RASpec`, …, `RARefute`, `RAProperties`) |
| `V1*` | the same for `contracts/marketplace` (`V1Model`, `V1Spec`, …, `V1Refute`, `V1Properties`) |

## 2. Modelling choices

* **Handlers** are total Gallina functions `view -> env -> sender -> funds -> state -> msg -> result (state * list cmsg)`,
  one per Rust function, in the same order of checks.  `Err` carries a constructor for each kind of error; a Rust
  panic (overflow checks are on in the release profile, so arithmetic overflow aborts) is `Err EPanic`.
* **Amounts** are `N`; operations that Rust performs on `u128`/`u64` return `EPanic` when the result does not fit.
* **Storage maps** are `gmap` keyed by the same keys.  A `MultiIndex` range is modelled as: take the
  entries whose index prefix matches, sort by the index suffix and primary key (byte order), apply the bounds,
  reverse when descending, take `limit`.
* **Queries** to other contracts are answered by a `view`, computed from the world: for standards-compliant
  ("honest") collections owner and approval queries are answered from the NFT ledger; everything else (collection info,
  royalty registry, contract admin, answers of non-standard collections) is an arbitrary oracle that may change at any step.
* **Transactions** are atomic: attached funds move, the handler runs, the messages are dispatched in order, any
  failure reverts everything.  So only successful transactions appear in the relation `texec`.
* **Re-entrancy**: executing a message at a non-standard collection (or at a v1 hook) runs `adv`: any number of environment
  steps and complete nested transactions against the same contract, by any sender other than the contract
  itself.  Environment steps may change every balance but never decrease the contract's own, may mint, burn and move every NFT
  not owned by the contract, change approvals, and change all oracle data.
* **Executable semantics** `run_*` (deterministic dispatch with inert external contracts) is proved to be an
  instance of the relational semantics and is used for liveness statements, examples and refutations.
* **Histories**: `*_reachable p w` - worlds reachable from instantiation by transactions, sudo calls, environment
  steps and the passing of time, including re-entrant executions.  `*_history p st` - the weaker notion for the storage alone: any
  sequence of successful handler calls with arbitrary query answers and block times.  Statements that do not need the chain use the latter,
  so they hold whatever other contracts answer.
* **Events** are a separate field of a response and have no influence on the chain, so they are computed by functions of their own (`V2Events`, `RAEvents`, `V1Events`)
  that follow the branches of the handlers; a failed call has none.  The chain's own additions (`_contract_address`, the `wasm-` prefix) are left out,
  as are events the external crates add (fair burn, payouts of reserve-auction).  Response attributes are modelled as the event `wasm` that the chain makes of them.
* **v1 submessages**: the exact-effect theorems C106-C109 are stated on the submessage list (`exec_sub`), which contains the contents of hook
  notifications; `execute` forgets those contents before the chain dispatches.

## 3. Trusted base

* Coq's kernel, including `vm_compute` (used in cases and refutation witnesses).  No native compute, no plugins.
* `Print Assumptions` beneath each of the theorems prints **"Closed under the global context"**: no theorem
  depends on an axiom.  (Importing std++ loads Coq's `ssrunder` and with it that file's library axioms; no theorem uses them.)
* The reading of the Rust code: that each definition says what the cited lines do.
* Behaviour of code that is not in `/repo` and is assumed as modelled:
  * cosmwasm-std: `has_coins`, `Decimal` and `Uint128` arithmetic, `Timestamp`, `addr_validate` (the predicate `p_valid`; a valid
    address validates to itself);
  * cw-utils: `one_coin`, `must_pay`, `may_pay`, `nonpayable`, `maybe_addr`, `NativeBalance`, `Expiration`/`Duration`;
  * cw-storage-plus: the byte layout written down at the head of `Storage` (length-prefixed namespaces and key parts, index entries
    holding the length of the primary key, ranges in byte order).  That this layout yields the maps, orders and index scans which the
    contract models use is proved (C120), for keys that fit (length-prefixed parts up to 65535 bytes; longer ones panic, which the
    models do not show).  Values are kept as records, not as JSON; sg-index-query: default limit 10, maximum 100, offsets exclusive
    by default;
  * the bank: sends of nothing, of zero coins, to blocked addresses or beyond the balance fail;
  * cw721: a transfer needs the owner, an approval or an operator, and clears approvals.  Expiry of approvals is the same as revocation;
  * sg1 fair burn: the burnt and pooled total is the fee.  What it does with zero is open for v1: parameter `ext`, theorems hold for both answers;
  * sg-marketplace-common **1.1.0** (the published crate used by reserve-auction, different from the local package): the parameter `lib`
    (fee and royalty rounding, how failed queries are treated).  Theorems hold for every `lib`; assumed is that settlement
    pays fee, royalty and rest, summing to the bid;
  * sg_controllers::Hooks: hooks are stored in order, duplicates are refused;
  * Blake2s256 is the parameter `p_hash`; injectivity is an explicit hypothesis (`collision_free`) where used. No real hash is
    injective: C129 shows that it suffices that no two of the strings actually hashed in the history collide
    (`no_collision`), and likewise for the address assumptions (`no_prefix`, `no_slash`).  `C129_stand_in` carries every
    theorem over; a few are restated. `C129_collision_costs` shows that a collision among the hashed strings does harm.
* Assumptions about the environment that appear as hypotheses or in the chain model:
  * the contract is not the sender of its own calls, and its coins leave only by its own messages;
  * the royalty registry called by v2 does not re-enter the marketplace (`p_reg_reenters p = false`) where custody is concerned: C04, C14, C67;
  * C106-C109 assume sums of amounts and times in a call fit their integers (`no_overflow`); overflow makes the call fail;
  * price-sorted v1 collection-bid paging assumes stored bidders are valid addresses (true on the chain).

### Modelled

| source | status |
|---|---|
| `packages/sg-marketplace-common/src/{address,coin,nft,royalties,sale,types}.rs` | all functions the contracts call |
| `stargaze-marketplace-v2/src/{constants,helpers,state,orders,execute,instantiate,query,msg,events}.rs` | everything |
| `reserve-auction/src/{state,helpers,execute,instantiate,sudo,query,msg}.rs` | everything (the external crate through `lib`) |
| `marketplace/src/{helpers,state,execute,sudo,query,msg}.rs` | everything (sg1 through `ext`), including hooks and `reply` |
| `migrate` of the three contracts | in `Migrate`, with the version record; the semver crate enters as a parse function and a comparison. In the contract models, which have no version record, it is the identity |

### Not modelled

JSON (de)serialisation, gas (in particular out-of-gas inside a v1 hook), the semver crate, IBC, schema generators (`bin/`), `typescript/`, `scripts/`, the tests.

## 4. Findings: claims that are false of the code

Each is refuted in the model by a concrete reachable run (`…_refuted`); the part that is true is proved beside it.

| property | what the code does |
|---|---|
| C03 | v2 `AcceptBid`, `AcceptCollectionBid` and the admin calls are not `nonpayable`: coins attached to them stay in the contract for good |
| C23 | v2 ask ids hash collection and token without separator; only the fixed shape of addresses keeps them apart |
| C24b | v2 checks the trading start when an ask is made, not when it is matched; moving the start later does not stop the sale |
| C29 | v2: the best bid can name a finder that cannot receive coins, or be so small that a fee rounds up past it; every sale into it then fails, and the seller cannot reach the next bid by `SetAsk`/`SellNft` |
| C32 | v2: the recipient and finder passed to an accept call are ignored if the NFT is listed (the ask's own are used) |
| C39 | auction: the first bid sets the end to now + duration, which may be less than the extension |
| C45 | auction `EndBlock`: an auction ending later in the current second is selected but not over, and fails the whole block hook |
| C46 | auction `EndBlock`: one auction with an invalid royalty address or a blocked recipient blocks all automatic settlement |
| C47 | auction: the halt window is dropped in an `EndBlock` with nothing due, so an auction ending in the window later settles unprotected |
| C48 | auction: overpaid creation fees are kept |
| C51 | auction: `AuctionsByEndTime` with a `start_after` key alone repeats entries |
| C61 | v1 `BuyNow` below the price or on an auction leaves a resting bid |
| C62 | v1 `UpdateAskPrice` has no maximum |
| C64, C86 | v1 `Asks` never shows token 0; `ReverseAsks` without offset is empty |
| C79, C80 | v1: a later owner can reprice an earlier owner's ask, and a stale ask works again when the NFT returns |
| C82 | v1 `UpdateParams` ignores the operators it is given |
| C83 | v1: a stale bid cannot be removed if the operator's reward rounds to zero (the bank refuses empty sends) |
| C87 | v1 `Collections` repeats a collection once per ask |
| C88 | v1 `Bids` cannot be paged: the offset is compared with the wrong part of the key, so every page with an offset is empty |
| C89 | v1 expiry paging starts again when the offset bid is gone |
| C93 | v1: sales whose fee rounds to zero fail if the chain refuses to burn nothing |
| C114 | reserve-auction: no event tells the duration of an auction without bids, or the longest allowed duration (an indexer has to query them) |
| C116 | marketplace v1: no event tells where the proceeds of an ask go, the finder's fee of an order, or the new value of a parameter; a purchase also emits set-bid although no bid rests, so an indexer must read the events of a call together |
| C117 | marketplace v1: the sale_type in a set-bid event is whatever the caller wrote; a fixed-price purchase can be reported as an auction |
| C119 | `migrate` of marketplace v2 and the reserve auction writes the version record unseen: it accepts older code and the storage of another contract |
| C127 | reserve-auction: one auction that cannot be paid out keeps all others due in the same EndBlock from being settled |
| C128 | marketplace v2: a tie between equal bids goes to the greater id, a hash of a counter that all collections share; a bid for another collection can decide who gets an NFT |
| C135 | marketplace v2: a buyer may name the contract itself as recipient; the NFT is then locked there (C136) |
| C137 | both marketplaces: a slightly higher price may pay the seller less, as several fees reach the next unit at once (v2 up to three units: 500 leaves 465, 501 leaves 462) |
| C148 | marketplace v2: at equal prices orders are served by the order of their hashes, not of their arrival (bids: greatest first, listings: smallest first); who bids later can be served first |
| C149 | reserve-auction: the limit of auctions per block, a u64, is cast to `usize` (sudo.rs:86), 32 bits on wasm32; a limit of 2^32 (or a multiple) stops all settlements by EndBlock without an error |

## 5. Proof methods

* Solvency and custody (C01, C04, C34, C35, C52): handler-level inequality lifted to all executions by mutual induction over
  `texec`/`dispatch`/`adv` (`ChainFacts`), with the shape of the emitted messages as side condition.
* Conservation (C02, C71, C95), fee splits (C06-C08, C43, C53, C76): arithmetic on the payment builders against closed formulas in the spec files.
* Book invariants (C05, C17, C21, C38, C49, C60, C81, C99): induction over histories.
* Matching (C09-C11), queries (C25-C27, C51, C64, C84-C90, C118): sortedness and completeness of index ranges.
* Liveness (C13, C14, C28, C66-C70, C75, C77, C83, C94): from the invariants, `run_tx` succeeds with the stated effect.
* Exact effect (C96-C98, C101-C103, C106-C110, C121, C122): "succeeds iff … and then exactly this state and these messages".  C121 is the strongest
  form, for all order calls of v2: an inductive relation with one constructor per outcome, equivalent to `execute`.  It needs amounts
  of 128 bits (`small_history`); a collection bid of exactly 2^128-1 is refused because its scan bound overflows.  C122 is the same for the reserve auction; the list EndBlock takes is unique
  (sorted, complete up to the limit), and so is the outcome for each auction on it.
* Books (C123-C125): a history is the list of its calls with storage before and after and messages; the sums over it are
  defined without the handlers, and balance by induction.  "Spent" is tied to an NFT delivered in the same call by separate theorems.
* Books of NFTs (C135): the transfers ordered for one NFT are read off the messages (`moves`), and compared with the change of the storage.  For the
  reserve auction they are a function of the storage before and after; over a history they alternate.
* Locked for ever (C136): the induction behind solvency carries any pending amount, and that behind custody any set of pending NFTs; with the surplus, or the
  stray NFT, as what is pending it says that they stay.
* Rounding (C137): the share left by the rates is compared with the amount paid, both scaled to avoid fractions.  The bounds are tight enough for `C137_v2_raise`
  (a higher price pays at most three units less); that it never pays less is false in both marketplaces.
* Finite auctions (C138): geometric growth by induction along a path of calls; Bernoulli's inequality turns it into a logarithmic number of bids.  Halts are left out
  (`no_halts`), because a postponement restarts the clock at the time of the block.
* Bounded work (C139): the messages of each kind are counted over the case list of successful calls; the bounds are reached by the examples.  Reading
  from storage (iterators, pages) is bounded by C85 and the query limits; matching an order reads at most one entry of an index.
* All accounts alike (C140): an equation between two runs of the same function, so refusals are included with their error.  Collections and the
  royalty registry keep their names, because their names do decide something: the order in which a block settles auctions and the ids of orders.
  The specification only says how each record looks with its accounts renamed.  Excluded: `instantiate` of v1, which stores the operators sorted by
  address, and the queries by bidder of v1, whose pages are in the order of addresses.
* A run on the contract (C141): one withdrawal, with its exact effect on the chain (C130-C132), leaves the other orders and the coins and NFTs behind them as
  they were, so the next one goes through as well; induction over the list.  Hooks and non-standard collections are called but do nothing else; the
  withdrawals of others cannot get in the way, but foreign code that runs between them is the subject of C13, C14, C68, C69 and C75, one withdrawal at a time.
* A race (C142): a bid that has been outbid has left no trace except in the clock, and setting the clock twice at one time is setting it once,
  provided an auction's duration is no shorter than an extension.  The increment orders the bids, so the winner does not depend on who came first.
* Limits and quotes (C143, C144): both follow from the exact relation of C121 (C122), in which a call trades with the first order in rank that meets
  its limit; the first in rank does not depend on the limit, and it is the first row of the price-ordered queries (C25, C51).  The limit 2^128-1 is
  left out of C143 because a collection bid at it panics (`amount + 1` overflows); C144 for the reserve auction assumes that the empty
  string is no address and that a block settles at most a hundred auctions, the largest page.
* Halts over histories (C145): the step statements behind C47 and C104, closed under any continuation.  The condition that EndBlock has room is
  needed (`C145_room_needed`), and the clause that the end is past as well: C47 refutes the protection of auctions that end in the buffer after a halt.
* Ways to trade (C146): follows from C121 and from the freshness of bid ids (C22), which is why it asks for fewer than 2^64 calls so far.  A bid repriced
  into a listing is left out: it frees the coins of its old bid and so is paid differently.
* Ties (C148): the refutations use the example hash; the tie theorems hold for every hash, so no hash with random order (Blake2s-256) can give arrival order.
* Word size (C149): `RAModel` takes the limit of auctions per block as stored. `RAWordModel` adds the cast to a 32-bit `usize`; that the contract then runs as if the limit were its last 32 bits is an equation for every call, refusals included, and makes every history a history of `RAModel`. No other `as` cast of the three contracts can lose bits: the query limits are cut at 100 first.
* Time (C150, C151, C152): one file each per contract (`V2Delay*`, `V1Delay*`, `RADelay*`). They compare one call at two times on the same storage with the same answers of other contracts; what happens in between is the subject of other properties. C151 holds for all storages, C150 and C152 for histories. The clock of the reserve auction must fit in 64 bits of nanoseconds after the periods are added (`clock_fits`), else the handlers panic.
* Questions (C153, C154, C155): `ViewSpec` names the questions the contracts put to others, `V2ViewSpec`, `V1ViewSpec`, `RAViewSpec` list per call those whose answers may matter; the theorems say that two views agreeing on the list give the same result, errors included. The lists are upper bounds: a bid that meets no listing, for example, does not ask for royalties. The histories are needed so that the order found under an id belongs to the collection the call names.
* Changes (C156, C157, C158): for v2 and the reserve auction proved through the transition relations of C121 and C122, for v1 by running the two calls side by side, errors included. The collection's answer about the owner is the only one that differs between changing a listing and listing again, since the NFT comes back in between. Two differences are left to the reader: a change keeps the id of a bid, which decides between bids of the same price, and a change goes through before trading starts (C24).
* Stale names and coins (C159, C160): the first from the numbering of bids (C22), so for fewer calls than the counter has values; the second from the transition relation of C121, by splitting each paying call into its deal, which is determined by the book, and the payment.
* The house (C161-C163): a comparison of two runs on the same orders; in v2 the height is the same in both because it is part of the names of bids. In v1 the total paid out is not compared, since the dust of a sale (C53) depends on the royalty. In the reserve auction the times may differ as well, and a settlement which a halt postpones in one run only is excepted. Whether the call succeeds does depend on the settings and answers (C153).
* More offers (C164): two reachable books, one of which contains the other; the call is the same and succeeds on both. That the call may fail on the larger book (the best bid's fees exceed its price, C29) is why success is assumed.
* Groups (C165): from the transition relation of C121, call by call; only coins are counted, not NFTs. The fee manager is left out of the group since it gains from every listing fee; C165_with_fee_manager leaves nobody out and names that fee.
* Groups in the reserve auction (C166): from the books of C123 with the high bids split into those of members and of outsiders; block hooks are covered. Nobody need be left out of the group: the creation fee is burnt.
* Groups in v1 (C167): from the effects behind C125, call by call. A member who is an operator gains the reward for removing stale bids of outsiders; that is a term of the bound.
* What a group owns on the chain (C168): C165-C167 joined with the bank balances after a transaction (TxSpec). The group is a list of different accounts without the contract; the bound is per transaction, because between transactions anybody may move coins by other means. The v2 theorem inherits the hypotheses of C165 on names and sizes.
* Bystanders (C169): the per-account books of C123-C125 joined with the balances after a transaction of somebody else. Delivery is stated as ownership on the chain and so only for standard collections (`p_honest`); the v1 theorems on delivery assume that no sum overflows, as C132 does.
* Safety of NFTs (C170): from the NFT books of C135 and the mandates of C78, joined with ownership after a transaction. The v2 theorem assumes, as C04 does, that the royalty registry does not call back.
* Transactions (C130-C132): for messages that take at most one NFT of an honest collection and no more coins than the contract holds
  (solvency), dispatching them succeeds iff each goes through by itself in the world before, and the balances add up.  Together
  with the exact-effect theorems this says which transactions succeed.  The executable chain has inert external contracts.
* No starvation (C133): the number of auctions in front of a due one is a measure; no call increases it, a successful EndBlock
  that does not reach the auction decreases it by its limit.
* Several contracts (C134): the semantics of `Chain` with one shared bank, NFT ledger and block, and a storage and oracle for each instance.  By mutual
  induction each instance sees an execution of its own chain: the transactions of the others are steps of its surroundings (`adv`).  A message to a contract of
  the repository that is not one of its messages (an NFT transfer with another instance's address as collection) fails, as for the contract's own address.
* Locality (C126-C128): two executions of a call in states that agree on the places the call is about are run side by side
  (a simulation over the handler's binds); a successful call is a list of writes to those places, and disjoint writes commute.
  The views and blocks of the calls are arbitrary, the same in both executions.  For marketplace v2 (C128) the proof goes through
  the transition relation of C121, whose words mention one collection only; that asks and bids of other collections survive
  needs the injectivity of ids.  The counter is the exception, and it matters for ties.
* Fresh ids (C22): ids end in the 8-byte nonce; a ghost history of issued ids; injective hash hypothesis.
* Storage (C120): keys are prefix-free, big-endian order is numeric order, so sorting bytes is sorting keys; a representation
  relation per table, preserved by each write, with disjoint regions.
* Hooks (C63, C91): dispatch semantics of reply-on-error.
