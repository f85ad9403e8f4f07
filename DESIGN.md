# Design

Subject: the Halotrade AMM contracts in /repo (halo-pair, halo-factory, halo-router,
halo-token and the packages bignumber and haloswap), at the pinned commit.
Everything is in Coq 8.16.1 under `rocq/theories` (logical name `Verif`), using the
standard library and std++ (finite maps, lists, strings).

## Model (what is transcribed)

| file | code |
|---|---|
| `Base.v` | `Result`, panics, error values, integer ranges |
| `BigNumber.v` | `packages/bignumber/src/math.rs` |
| `BigNumberWire.v` | the rest of `math.rs`: comparisons, zero tests, `+=`, MAX, From<u64>, serde |
| `ReplyWire.v` | cw-utils `parse_reply.rs`: the protobuf bytes `reply` of pair and factory decode (halo-pair contract.rs:194-196, halo-factory contract.rs:233-243) |
| `CwStd.v` | the parts of cosmwasm-std 1.1.8 the contracts call (Uint128, Decimal, Api, bank and wasm messages) |
| `Asset.v` | `packages/haloswap/src/{asset,querier}.rs` |
| `Messages.v` | message enums of `packages/haloswap/src/{pair,factory,router,token}.rs`, JSON dispatch by tag |
| `PairMath.v` | the arithmetic of `contracts/halo-pair/src/contract.rs`: swap, reverse swap, spread and slippage checks, shares, refunds |
| `Pair.v` | the handlers and queries of `contracts/halo-pair/src/contract.rs` |
| `Factory.v` | `contracts/halo-factory/src/{contract,state}.rs` |
| `Router.v` | `contracts/halo-router/src/{contract,operations}.rs` |
| `Token.v` | `contracts/halo-token/src/contract.rs`, `packages/haloswap/src/token.rs`, cw20-base 1.0.0 execute entry points |
| `TokenQueries.v` | `contracts/halo-token/src/contract.rs:73-76`, cw20-base 1.0.0 Minter, Allowance and enumerable queries |
| `TokenMirror.v` | cw20-base 1.0.0's second allowance map (ALLOWANCES_SPENDER) and AllSpenderAllowances |
| `Json.v` | JSON text and base64 (serde-json-wasm 0.4.1, base64 0.13.1) |
| `Wire.v` | the JSON forms of the messages of `packages/haloswap/src/*.rs` and of cw20 1.0.0: what cw_serde derives |
| `QueryWire.v` | the query entry points of the four contracts, and the JSON of all questions and answers |
| `Storage.v` | `state.rs` of the factory, the pair and the router: keys and JSON of what they store, cw-storage-plus items, maps and ranges; their entry points on bytes |
| `TokenStorage.v` | the storage of `contracts/halo-token` (cw20-base `state.rs`): keys, JSON, both allowance maps; instantiate, execute and query on bytes |
| `SpenderWire.v` | the JSON of AllSpenderAllowances and the token's query entry from bytes to bytes |
| `ByteWorld.v` | the chain of `World.v` with every contract of /repo kept as the bytes of its storage |
| `ByteQuery.v` | smart queries on that chain, from bytes to bytes |
| `MigrateWire.v` | the JSON of `MigrateMsg` and the migrate entry points from bytes |
| `ByteEntry.v` | the execute entry points from message bytes on stored bytes |
| `WireWorld.v` | that chain with every message to a contract of /repo sent as bytes |
| `World.v` | the chain: bank, contract instances with admins, block height and time, nested message execution, replies, rollback, migration, admin changes, histories |

Each handler is a Coq function from (environment, querier, own storage, message) to
`Ok (storage, messages, attributes)` or `Err e`; a Rust panic is the error value `EPanic`, so
"never panics" can be stated.  Integers are `N` with explicit range checks wherever Rust
checks.  Queries between contracts are answered by running the queried contract's query
function on the same state (`wq` in `World.v`), as on the chain.

`World.v` also contains contracts of third parties (`SAdv`).  Their code is arbitrary: the
`chain` record has a function for each entry point, and theorems quantify over the record.
Such contracts can call, instantiate, migrate, answer queries with anything, and catch
errors of submessages with replies.  A transaction is any message signed by an ordinary
account; `history` is any number of transactions and blocks; `reachable` is a history
from a state without contracts and with any bank balances.

The log of a history (`list event`) holds the successful calls in order, with sender,
message, funds and attributes, and, for the specifications only, the state in which the
handler ran.

## Specifications

Statements use integers (rational inequalities are cross-multiplied), the two or three
observations `holds` (balance of an asset), `bal` (bank balance), `supply`, `pair_at`,
`tok_at`, `fac_at` (the contract at an address), and `called`/`In e lg` (a call is in the
log).  `Spec.v` has the definitions shared by several properties; the others stand in front
of their theorem.  No theorem is stated with a helper of the implementation except the
handler or query it is about.

## Files with proofs

| file | content |
|---|---|
| `BigNumberFacts.v`, `SwapFacts.v`, `SwapFacts2.v`, `PairFacts.v`, `FactoryFacts.v`, `TokenFacts.v` | inversion lemmas and arithmetic of the single contracts |
| `WorldInd.v`, `WorldInd2.v` | induction principles over nested message execution |
| `WorldFacts.v`, `WorldInv.v` | invariants of every reachable state (`main`): addresses, LP tokens, allowances, what each contract may send |
| `ExecFacts.v` | symbolic execution of whole transactions |
| `Replay.v` | the state of a token is the replay of the calls in the log |
| `Examples.v`, `WorldExamples.v` | concrete pools and a concrete chain for the cases beside the theorems |
| `P_*.v` | the property theorems |
| `Assumptions.v` | one `Print Assumptions` over all of them |

## Trusted base

- The Coq kernel (coqc, and coqchk as run by vcheck).
- Axioms: none.  `Assumptions.v` collects every theorem named in MANIFEST.json in one term and
  prints its assumptions: `Closed under the global context`.  So each single theorem is
  closed too.  (std++ loads `Coq.ssr.ssrunder`, whose axioms coqchk lists; no theorem uses them.)
- The transcription of the code listed above.
- Behaviour of external code, written by hand from its documentation and source as
  remembered: cosmwasm-std 1.1.8 (`CwStd.v`), serde, serde-json-wasm and base64 (`Json.v`, `Wire.v`), the bigint U256 type (`BigNumber.v`), cw20-base
  1.0.0 (`Token.v`; /repo only wraps it), cw-storage-plus (`Storage.v`, `TokenStorage.v`), and the semantics of wasmd and
  the bank module (`World.v`).
- `chain_laws`: canonicalization and humanization of addresses are inverse on canonical
  addresses, canonical addresses are not empty, new contracts get new normalized addresses.
- `chain_ok`, assumed by the theorems on histories except C52 and C53: in addition, no contract of
  /repo is migrated to third-party code (`no_takeover`).  Such a migration can do anything to
  the contract's storage, so nothing could be said otherwise.  Who can order one is C52/C53.

Messages are typed values in the model of the contracts and of the chain; `Json.v` and
`Wire.v` model the JSON text and base64 they travel as, and C87 shows that nothing is lost by
working with typed values; `QueryWire.v` and C88 do the same for queries and their answers, `Storage.v` and C100 for the storage of the factory, pairs and router, `TokenStorage.v` and C101 for that of tokens.  `ByteWorld.v` and C102 do it for whole runs of the chain, `WireWorld.v` and C107 with the messages in bytes too.  Strings are byte sequences there (that text is UTF-8 is not checked), and
JSON forms that no message type of /repo contains (booleans, negative and fractional numbers) are
not parsed.

Not modelled: gas; the JSON of the QueryRequest around a query; the wasm VM; reading the cw2 version
(no code of /repo does); cw20 marketing messages and logo (calls fail in the model: no marketing
account is set by /repo's instantiate); cw20 marketing and logo queries; IBC, staking and
governance messages; migration of a contract of /repo to the code of a different contract of
/repo (refused in the model; on chain it leaves a contract that cannot read its storage);
the pair's `amount_of` (contract.rs:585-590, never called); mocks and tests.

## By property

For each property: what is modelled, how it is proved, and where.  Every theorem is
followed by an `Example` (named after the property) with a concrete case.

- **C01 A swap never lowers the pool's constant product** (P_Swap.v; status proved). `compute_swap` over all N. The product after a swap is bounded by exact division lemmas; the case of zero commission and offer reserve above 10^18 loses by fixed-point truncation, bounded exactly and witnessed.
- **C02 A swap never empties the ask side** (P_Swap.v; status proved). `compute_swap`; exact condition under which the ask reserve is emptied, plus a witness.
- **C03 A swap charges exactly 0.3 percent of the constant-product output** (P_Swap.v; status proved). `compute_swap`; the two truncating divisions against the exact rational values.
- **C04 A swap quote is always available for a live pool** (P_Swap.v; status proved). `compute_swap` as a partial function: necessary and sufficient condition for an answer.
- **C05 Offering more never returns less** (P_Swap.v; status proved). `compute_swap`; monotonicity of truncating division in the offer and the reserves.
- **C06 No profitable sequence of swaps** (P_Swap.v; status proved). Induction over arbitrary sequences of swaps in both directions (`run_swaps`), each with the balance changes of the handler.
- **C07 A quote is honoured** (P_Exec.v; status proved). Whole transactions in `World.v`: cw20 Send, Receive hook, swap, payment; compared with the answer of the Simulation query in the state before.
- **C08 A reverse quote is sufficient** (P_Reverse.v, P_Swap.v; status proved). `compute_offer_amount` followed by `compute_swap`; C08_quote_executed (P_Reverse.v) for whole transactions in reachable states.
- **C09 max_spread bounds the loss** (P_Pair.v; status proved). `assert_max_spread` against exact rational price limits, in both directions (accepted iff).
- **C10 slippage_tolerance bounds the deposit ratio** (P_Pair.v; status proved). `assert_slippage_tolerance` against exact cross-multiplied ratios, in both directions.
- **C11 Minting never dilutes existing liquidity providers** (P_Pair.v; status proved). `provide_liquidity` arithmetic; cross-multiplied value per share.
- **C12 First deposit rules** (P_Pair.v; status proved). `provide_liquidity` with empty supply: whitelist, minimums, integer square root.
- **C13 Withdrawal pays the pro-rata share, rounded down** (P_Pair.v; status proved). `withdraw_liquidity` against exact pro rata amounts.
- **C14 Providing and withdrawing at once is never profitable** (P_Deposit.v, P_Pair.v; status proved). Composition of the deposit handler and the withdrawal handler; as two whole transactions in World.v, over every account and asset, from C54 and C48.
- **C15 The last holder gets everything** (P_Pair.v; status proved). `withdraw_liquidity` with the whole supply.
- **C16 Only the right token contract can trigger a swap or a withdrawal** (P_Pair.v; status proved). Case analysis of `execute` and of the Receive hook for every sender and message.
- **C17 A swap pays exactly once, the right asset, to the right account** (P_Pair.v; status proved). `swap` handler: the messages it sends.
- **C18 Native deposits must be paid with the call** (P_Pair.v; status proved). `provide_liquidity` handler: attached coins, messages, reserves used.
- **C19 Native coins can be swapped** (P_Exec.v; status proved). Impossibility over whole histories by induction (`log_assets_ok`), and for the router's hop.
- **C20 Only the owner administers the factory** (P_Factory.v, P_Registry.v; status proved). Case analysis of `execute`; over histories, the settings are the replay of the owner's calls in the log (`replay`).
- **C21 One pair per unordered asset pair, never replaced** (P_Factory.v, P_Pages.v, P_Registry.v; status proved). Handler level, and permanence over histories by induction (`keep_ok`). P_Pages.v restates it by queries alone, in any factory state: a Pair question is answered alike in both orders (`C21_either_order`) and what is answered cannot be created again in either order (`C21_known_refused`).
- **C22 Different asset pairs never collide in the registry** (P_Factory.v, P_Pages.v; status proved). `pair_key` as byte strings; injectivity under prefix-freeness, witness of a collision. `C22_answer_is_about_the_question` (P_Pages.v): in every reachable state, if no identifier asked about is a proper prefix of one in the answer or conversely, the answered pair is of the two assets asked about.
- **C23 Registry entries describe a real pair** (P_Registry.v; status proved). Invariant over histories of the factory's registry (`reg_ok`), running pair and LP token instantiation and both replies.
- **C24 Paging through Pairs visits every pair exactly once** (P_Factory.v, P_Pages.v; status proved). `Pairs` pagination over sorted finite maps, by induction on the pages. P_Pages.v restates it without the model's pair key (`place` is the concatenation of the two raw identifiers in byte order): in every reachable state walking the pages lists exactly the pairs the factory tells when asked, each once, in the order of their places (`C24_pages_are_the_pairs`), if the places of told pairs are prefix-free (`separated`); pairs of tokens with canonical addresses of one length always are (`C24_token_pairs_separated`).
- **C25 Native assets need registered decimals** (P_Decimals.v, P_Factory.v, P_Registry.v; status proved). Handler level plus the registry invariant of C23. C25_listed_decimals compares what a listed pair records with the states of the tokens and of the factory themselves: contracts keep their kind and tokens their decimals from the event that made the pair on.
- **C26 A pair always has two different assets** (P_Factory.v, P_Pages.v; status proved). `create_pair` on raw and human addresses. `C26_never_itself` (P_Pages.v) says it with `same_asset`: equal denominations, or addresses with the same canonical form.
- **C27 Route validation** (P_Router.v; status proved). `assert_operations` against the list property it decides.
- **C28 minimum_receive is enforced** (P_Exec.v; status proved). Whole route transactions, by inversion of the executed submessages.
- **C29 Internal router steps cannot be called by others** (P_Router.v; status proved). Case analysis of the router's `execute`.
- **C30 A route is executed hop by hop in order** (P_Router.v; status proved). Messages of `execute_swap_operations`, by induction on the operations.
- **C31 Route simulations compose pair simulations** (P_Router.v; status proved). The simulation queries as folds, by induction on the operations.
- **C32 Routes leave nothing behind** (P_Exec.v; status proved). Execution of one hop in `World.v`.
- **C33 A route simulation is honoured** (P_Route.v; status proved). Induction over the hops of a route in `World.v`, hops over distinct pairs not disturbing each other.
- **C34 Token supply is the sum of balances** (P_Ledger.v; status proved). Invariant of every reachable state: sum over the finite map of balances.
- **C35 The mint cap is never exceeded** (P_Ledger.v; status proved). Invariant of single tokens kept by every call (`token_inv`).
- **C36 LP tokens are minted only by providing liquidity** (P_Ledger.v; status proved). Induction over histories (`lps_ok`): supply of the LP token without a ProvideLiquidity call.
- **C37 Token instantiation validation** (P_Token.v; status proved). `token_instantiate`: accepted iff, and the state it makes.
- **C38 Nobody spends another account's tokens** (P_Ledger.v; status proved). Induction over executions of one transaction (`spend_ok`), with the invariant who may hold allowances.
- **C39 Decimal256 text round-trips** (P_BigNumber.v, P_Text.v; status proved). Printing and parsing of decimals by induction on digits. P_Text.v: two digit strings of the same length and value are equal, a string without leading zero has the length its value dictates, and padding a fraction to 18 digits is undone by trimming.
- **C40 Decimal to Decimal256 conversion is exact** (P_BigNumber.v; status proved). `Decimal256::from(Decimal)` and back.
- **C41 Uint256 and u128 conversions** (P_BigNumber.v, P_BigNumberWire.v; status proved). U256 limbs. C41_u64: the conversion from u64.
- **C42 Big-number arithmetic is exact or aborts** (P_BigNumber.v, P_BigNumberWire.v; status proved). All operators used by the contracts against unbounded arithmetic. C42_compare_exact (P_BigNumberWire.v): comparison limb by limb, zero tests, += and MAX agree with the integers.
- **C43 Accepted decimal texts** (P_BigNumber.v, P_BigNumberWire.v; status proved). `Decimal256::from_str` against the value of the digit string. C43_parse_outcomes (P_BigNumberWire.v): for every text, whether it is accepted, aborts or is refused.
- **C44 Native coins are conserved** (P_Ledger.v; status proved). Induction over histories: sum over the bank.
- **C45 LP share value never decreases** (P_Value.v; status proved). Induction over histories (`v_ok`) with an invariant on pair, its two assets and its LP token; the steps inside a transaction keep (reserves, supply) related (`v_rel`).
- **C46 Reserves leave a pair only through swaps and withdrawals** (P_Ledger.v; status proved). Induction over histories (`keeps_ok`).
- **C47 A pair's configuration is immutable** (P_Dispatch.v, P_Ledger.v; status proved). From the relation `rel` between the states before and after any execution. `C47_migration_keeps` (P_Dispatch.v) ties the chain's migration to the migrate handlers of the contracts.
- **C48 Liquidity is never locked** (P_Exec.v; status proved). Construction of the successful transaction in every reachable state, from the invariants.
- **C49 A token's balances and supply are the sum of its calls** (P_TokenHistory.v; status proved). A token at the end is the replay of the calls in the log (`Replay.v`), then sums over the log.
- **C50 Allowances bound what a spender can take** (P_Book.v, P_TokenHistory.v; status proved). Replay, then a potential function over the log; each spending call's state at that moment from the replay. The other direction (P_Book.v) from the account book of C85.
- **C51 Token metadata is immutable and the minter role belongs to the minter** (P_Book.v, P_TokenHistory.v; status proved). Replay, then case analysis of the calls; that a token without minter never grows (P_Book.v) from the account book of C85.
- **C52 Only the factory owner can have a pair's code replaced** (P_Migrate.v; status proved). Direct mutual induction over execution with takeover allowed (`ours_kept`); only `chain_laws` assumed.
- **C53 The code of an LP token can never be replaced** (P_Migrate.v; status proved). Induction over execution with takeover allowed (`lp_ok`, `code_ok`); only `chain_laws` assumed.
- **C54 What a deposit costs, what it earns, and exactly when it is accepted** (P_Deposit.v; status proved). Inversion and construction of the whole transaction in World.v (attach, draw both assets, mint), in both directions.
- **C55 A route is exactly its hops, and the router keeps nothing** (P_Route2.v; status proved). P_Route2.v. The relation hops states the effect of a route on what every account holds of every asset, without the router's messages; hop_paid and route_inv show by induction on the operations that each message of a successful route has that effect, and hops_clean reads off what the router is left with. C55_wrong_token_lost shows that a token sent with a route that does not offer it stays in the router and goes to the next caller.
- **C56 Route quotes are monotone, and reverse route quotes never exceed the target** (P_Quotes.v; status proved). P_Quotes.v. hop_quote_value reduces each hop's quote to the arithmetic of compute_swap and compute_offer_amount on the reserves; quotes_mono and reverse_under are inductions over the route using the monotonicity of the swap formula and the bound on the reverse formula.
- **C57 Pool, Simulation and ReverseSimulation queries report the truth** (P_Quotes.v, P_Reverse.v; status proved). P_Quotes.v and P_Reverse.v. The answers are compared with what the accounts hold in the world model (holds) and with closed formulas (gross, fee, at_price; with_fee, needed) that do not use the contract's arithmetic.
- **C58 Exactly which cw20 swaps are executed, and what they do** (P_Quotes.v; status proved). P_Quotes.v. swap_tx_inv and swap_tx_ok execute the Send, the pair's Receive and its payment in both directions; compute_swap_iff and limits_iff turn the fixed-point arithmetic of compute_swap and assert_max_spread into the closed conditions priced and within.
- **C59 A withdrawal is executed exactly when the sender has the LP tokens and each refund is at least one unit; the holder of all LP tokens gets everything** (P_Withdraw.v; status proved). Inversion of the whole transaction (token send, Receive hook, two payments, burn) into transfer relations gives the forward direction and the effect; C48_can_withdraw gives the converse. For the full supply the rounded share is exactly one, so the refunds are the reserves.
- **C60 CreatePair succeeds exactly for two different assets with known decimals and no pair yet, and creates exactly a truthful pair and an empty LP token** (P_Create.v; status proved). The transaction is evaluated symbolically: the nested instantiations and replies are rewritten to an explicit resulting world (create_exec), which exists for every sufficient fuel; inversion of CreatePair and of the pair's instantiation gives the necessary conditions. The effect is read off the explicit world.
- **C61 What a pair reports about a swap, deposit or withdrawal is exactly what happened** (P_Events.v; status proved). P_Events.v. The log of a whole transaction is filtered to the events of the pair (own); quiet_run shows that the messages a pair emits (transfers, mint, burn, bank sends) never call the pair, so exactly one event remains, whose attributes are compared with the ledger effects proved in C56, C54 and C59. dec_to_string_inj: decimal printing is injective.
- **C62 The order in which the two assets are named does not matter for deposits and pair creation** (P_Order.v; status proved). P_Order.v. Two runs are compared: deposit_of finds the amounts by asset, so the emitted messages agree (provide_swapped), and the rest of the execution is the same run. For CreatePair the characterisation C60_create_pair_iff is symmetric.
- **C63 Exactly when token calls are executed and exactly what they change** (P_Cw20.v; status proved). P_Cw20.v. accepted states the conditions of each call by cases; tok_call_iff proves both directions on the token model using the invariant token_ok (sum of balances = supply < 2^128), tok_call_effect the exact effect, and tok_exec lifts both to transactions. Send and SendFrom are decomposed into two runs (two_steps).
- **C64 Exactly when the owner's calls to a factory are executed and exactly what they change** (P_Admin.v; status proved). P_Admin.v. local_inv/reachable_everywhere: a general induction principle for invariants of single contract states over all histories; used to show that the stored owner is always a humanizable address. fac_quiet and fac_quiet_effect lift factory_execute to transactions; the effects are stated through the factory's queries only.
- **C65 Apart from swaps nothing lowers what an LP token is worth on either side** (P_Sides.v; status proved). P_Sides.v: the induction over histories of C45 (P_Value.v, value_history) is stated for any relation between states that is kept by steps lowering reserve per share on neither side; C65 takes the two per-side inequalities S' * x <= S * x'. C65_redeemable_never_falls adds the rounding of the refund formula. C65_case runs a deposit, a donation, a withdrawal and a burn.
- **C66 All LP tokens together never claim more than the reserves** (P_Sides.v; status proved). P_Sides.v: total_refunds bounds the sum of rounded refunds, total_balances shows that the balances of distinct accounts add up to at most the supply (C34). C66_case has two holders.
- **C67 What a depositor can get back from a running pool** (P_Fair.v; status proved). P_Fair.v: deposit_reserves (from C54) gives the reserves and supply after the deposit; limiting_refund and other_refund are the arithmetic, the latter from the passed slippage check (C10). C67_rounding_only_refuted is a reachable state where a deposit of 19999 and 19999 with tolerance 0 is redeemable for 10010 and 10010. C67_case is an ordinary deposit with 5% tolerance. C67_round_trip_loss adds the executed withdrawal (C59) of the tokens earned.
- **C68 The first liquidity of a pair comes from a whitelisted depositor and meets the minimums** (P_First.v; status proved). History induction over the executable chain model: at every node of every transaction either an admitted deposit is in the log or an LP supply of zero stays zero. The only messages that can mint an LP token are those of its pair, and the pair only emits them when provide_liquidity succeeded, which for supply zero requires the whitelist and the minimums.
- **C69 What is sent to a token contract or to the factory stays there forever** (P_Stuck.v; status proved). History induction: a token or factory contract never emits a message that moves assets (bank sends, funds attached to messages, token transfers), and a token only debits the sender of a call or the owner of an allowance; these contracts never send such calls nor grant allowances.
- **C70 Splitting a swap hardly matters** (P_Parts.v, P_Split.v; status proved). The reserve changes of each executed swap come from C58; the bound follows from two-sided bounds on the gross return y*n/(x+n) with its rounding, and on the commission, by exact arithmetic over the natural numbers. Any number of parts (P_Parts.v): induction over the list of parts; the upper bound by the near-monotonicity of the product of the reserves, the lower bound by cutting off one part at a time.
- **C71 What a passive liquidity provider keeps** (P_Gain.v; status proved). Consequences of C45 (the product of the reserves per squared LP supply never falls over a history): if both sides fell the product would; the worth at any price follows from the inequality of arithmetic and geometric mean, exactly over the natural numbers.
- **C72 No group of accounts can gain at the expense of a pool** (P_Gain.v; status proved). Balances of an asset over all accounts add up to what exists (C34, C44; is_sum), so what the group and the pair own together does not grow and what outsiders own of the LP supply does not fall; the outsiders' claim on the reserves, valued at the old price, does not fall by C71.
- **C73 Exactly which routes are executed and exactly what they do** (P_RouteIff.v; status proved). `routed` (P_RouteIff.v) describes a route purely on ledgers (account, asset to amount): per hop the preconditions and the two payments. Both directions are by induction over the list of hops against the executor: forward by inverting every hop, backward by executing it; the surrounding cw20 Send, the router's shape check and the minimum check are executed/inverted around it. C73_case is a two-hop route whose largest accepted minimum is shown.
- **C74 A belief price with a maximum spread protects a swap against trades executed before it; a maximum spread alone does not** (P_Limits.v; status proved). Positive part: pair and tokens persist over the history in between (history_main), the executed swap is inverted (swap_tx_inv) and its limit check turned into the bound (limits_iff). Negative part (C74_max_spread_alone_refuted): a computed sandwich on the example chain, four transactions by two users with the resulting balances.
- **C75 What a router holds is paid out only by its own hops, and to whoever routes next** (P_RouterFunds.v; status proved). Induction over histories with the two-layer scheme of `WorldInd2` (`P_RouterFunds.rf_ok`): every message the router emits is shown to spare asset i unless it comes from a hop offering i, tokens take nothing from an account without its message or an allowance, and routers are never in an allowance map. The second half is the backward direction of C73 for a one-hop route. Case: 5000 units transferred to the router by mistake are sold by the next account for itself.
- **C76 Routes called directly sell what the router holds, and native coins never leave a router** (P_Direct.v; status proved). `C76_direct_route_iff` has the same independent route specification as C73 (`routed`), started from the balances after the attached coins moved. `C76_native_coins_stay` is an induction over histories: every coin a router sends goes with a Swap message, which every contract of the code base refuses.
- **C77 Who creates a pair decides forever who may start it, so anybody can block two assets for good** (P_Squat.v; status proved). Composition of whole-transaction results: C60 (what CreatePair creates and when it succeeds), C21 (entries stay and block further creation in every later state) and C68 (first LP tokens need an admitted deposit).
- **C78 Every commission goes to the liquidity providers and compounds** (P_Fees.v; status proved). Theorems over whole histories: the invariant of C45 with a relation that carries the log. Each step multiplies the value of a share by a factor; steps other than swaps by at least 1, a swap by at least the factor read off its event (the pair's own events are isolated with the lemmas of C61, the swap arithmetic is the upper bound on the gross amount). The factors are specified by an inductive relation on the log that uses reported attributes and the balances at the event only. C78_one_swap is the additive form for one transaction; C78_factors_unique shows that the log determines the factors.
- **C79 Every pair an honest factory lists is sound** (P_Listed.v; status proved). Registry invariant of C23 strengthened with freshness: the pair and LP addresses were unused in the world of the CreatePair call (made_by in P_Registry.v), while create_pair's decimals query needs a contract at every token asset. From that follow the separation facts; the guarantees are C45, C65 and C78 with their hypotheses discharged for listed pairs (P_Listed.v).
- **C80 A pair refines an abstract constant-product pool** (P_Refine.v; status proved). P_Refine.v: forward simulation. pool_step and pool_runs define the abstract pool on three numbers, tells reads a report off event attributes. The invariant over histories (history_ind3, as in C45 and C78) is the existence of an abstract run whose reports are what the pair's events tell: f_recv for withdrawals and swaps, provide_told for deposits, everything else is a gift. C80_books is induction over abstract runs. C80_case shows the reports of five transactions.
- **C81 Every transaction among halotrade contracts ends, after a bounded number of calls** (P_Finite.v; status proved). P_Finite.v: settles says that a computation with fuel comes to one end, not a lack of fuel, from some fuel on; it composes through let*. No handler answers with a lack of fuel (nf, for every function of the model), asks lists what each message makes a contract send, and ends_all bounds fuel and events by the nesting of messages. C81_case counts the calls of a withdrawal and a route; C81_loop is the third-party contract that never ends.
- **C82 A pair treats everybody alike and looks at nothing but itself** (P_Alike.v; status proved). Two-state (relational) theorem in P_Alike.v. `same_pair` says that two worlds agree on the pair's settings, holdings and LP supply; C82_nothing_else_matters shows equality of the handler's whole result (including errors) and of the queries. C82_swaps_alike, C82_withdrawals_alike and C82_deposits_alike combine the exact conditions and effects of whole transactions (C58, C59, C54) for two users in two states.
- **C83 Trades of different users on different pairs do not influence each other, in whatever order a block holds them** (P_Block.v; status proved). Induction over the list of trades in P_Block.v: a swap changes only what its user and its pair hold (C58_swap_effect), and whether and how another one is executed depends only on its own user and pair (C58_swap_iff); the payments of a block are a sum that does not depend on the order.
- **C84 A token's queries tell what the token acts by, and listing the accounts page by page finds every holder** (P_TokenQuery.v; status proved). TokenQueries.v adds Minter, Allowance, AllAccounts and AllAllowances. The client is an explicit loop (collect) over a list of limits. A strictly sorted list splits at the last name seen, so each page continues where the last ended; completeness follows by induction on the limits. That every listed name can be queried is an invariant (named) shown by replaying a token's history from its instantiation. The sum is C34; agreement with calls is C63.
- **C85 A token is exactly an account book of its logged calls** (P_Book.v; status proved). P_Book.v defines the abstract book (entry, in_order_now, book_after, all_in_order, opening). history_replay (Replay.v) gives the exact sequence of token_execute runs behind the log; keeps_step shows that each run makes the book's entry and was in order (from C63's token-level equivalence and effect); C85_book and C85_new_book lift this to histories, C85_every_entry is the converse for calls that concern only the token.
- **C86 Splitting deposits or withdrawals into parts does not pay** (P_PartsLP.v; status proved). The effect of each withdrawal and deposit comes from C59 and C54; what a withdrawal leaves is bounded from both sides (refund_left), and induction over the parts adds up the rounding errors. Deposits: supply / reserve never rises along deposits, so the total minted is at most what the formula gives for the whole; for an empty pool the geometric mean is used.
- **C87 Messages mean the same as bytes** (P_Json.v, P_Schema.v, P_Wire.v; status proved). Wire.v writes and reads the JSON value of each message, Json.v its text and base64. The text is read back (JsonFacts.v: induction over values with a reader run on fuel), each field is read back exactly if it is in range (WireFacts.v). jmsg_of gives the one typed message a byte string stands for. C87_bytes_are_messages: each contract, given any bytes, does what the model does with that message. C87_messages_survive: given the bytes of a message it does what the model does with the message. C87_read_back: the bytes of a message determine it. C87_instantiate_survives: the same for instantiation. C87_sent_messages_fit: whatever the contracts send, including instantiations and from replies, is a message that stands for its own bytes, so the theorems apply along whole transactions. A payload value that no contract reads must be one that indeed does not decode (hook_fits); that is the only restriction. Cases: the literal text of all 22 messages, variants, refused texts. P_Schema.v says, per entry point, by a schema (field names, which are required, number bounds, the shape of amounts, decimals and base64) exactly which JSON values are taken as messages, hooks and instantiations, and writes out the text of every message independently of the writers; both are proved for all values. P_Json.v gives the grammar of JSON text as an inductive relation and proves that the reader reads a text as a value exactly if the grammar derives it (C87_reads_exactly_json: nothing may follow, no leading zeros, escapes and surrogate pairs), and that what is written is derived by the grammar and has no control characters (C87_writes_json); the schemas speak of texts through this grammar.
- **C88 Questions and answers mean the same as bytes** (P_Dispatch.v, P_QueryWire.v, P_Schema.v; status proved). `QueryWire.v` models the query entry points and the JSON of every question and answer; `smart` is a query from bytes to bytes. `FitsInv.v` proves by induction over all executions that every number in contract storage stays in the range of its type (`reachable_fits`), from which all answers fit. `C88_questions_survive`, `C88_query_bytes`, `C88_asking_is_knowing` (the functions of querier.rs over the wire equal the answers the model of the chain uses) and `C88_answered_bytes`; third-party contracts, whose answers are parameters, are excluded (`ours`). Cases: a dialogue in literal JSON. P_Schema.v gives the same schemas for the questions and the text of every question and answer. `C88_who_answers` (P_Dispatch.v) says for each contract which query function answers which question with which arguments, and that all other questions are refused.
- **C89 What a new contract is** (P_New.v; status proved). Symbolic execution of the instantiate message (for pairs with the submessage creating the LP token and its reply), stated through the query entry points of `QueryWire.v` (`asked`): `C89_new_factory(_iff)`, `C89_new_router(_iff)`, `C89_new_token(_iff)`, `C89_new_pair(_iff)`. For pairs the token code is assumed to be token code (with third-party code as LP token anything could happen).
- **C90 Decimal256 and Uint256 in JSON** (P_BigNumberWire.v; status proved). BigNumberWire.v models Serialize and Deserialize of both types on top of Json.v. C90_numbers_survive_json by C39 and the round trip of JSON strings; the printed texts need no escapes. C90_decimal256_json and C90_uint256_json: by the grammar of P_Json.v and the exact description of the accepted texts (C43), with C43_parse_outcomes separating the texts that abort from those that are refused. Cases: texts of the unit tests, white space, a number outside quotation marks, an overflow.
- **C91 Following a token's events is knowing its balances, supply, allowances and minter** (P_Indexer.v; status proved). `Token.v` transcribes all attributes of the token (cw20-base 1.0.0). `heard` is the follower: a function of its record and the attributes of one event only. `C91_following_events` and `C91_from_the_start` by induction over the replay of the log (`Replay.v`), with the account book of C85 for the step. Case: allowance, spending, burning, lowering and a swap on the example chain, with the literal attributes.
- **C92 What the factory and a new pair report can be read back by asking** (P_Reports.v; status proved). Handler level (the log of the model holds the attributes of calls, not those of replies): the call `create_pair` followed by `factory_reply` from any intermediate querier, then `factory_query_pair`; `pair_reply` then `pair_query_pair`; `add_native` then `factory_query_native`. Case: a pair of the second token and the coin, with literal attributes.
- **C93 Swaps move the price against followers and in favour of the other side** (P_Moves.v; status proved). Swaps as in C58; monotonicity of the price formula in both reserves, net of the rounded commission; induction over the sequence of swaps, each of which leaves the pair with no less of the offered and no more of the asked asset (also when the receiver is the pair itself).
- **C94 Liquidity makes quotes better, in the direction in which it was added in proportion** (P_Depth.v; status proved). The price formula grows when reserves grow by d and e with d*y <= e*x (cross-multiplication under the two roundings); the effects of deposits and withdrawals on the reserves are those of C54 and C59. The example shows a lopsided deposit worsening the other direction.
- **C95 There are never more shares than the geometric mean of the reserves** (P_Geo.v; status proved). P_Geo.v; induction over executions (ind3) with the relation: if the bound held before the step it holds after it. Quiet steps only lower the supply or raise reserves; a swap by C01; a withdrawal and a later deposit by the two side inequalities of C45; a first deposit because it mints sqrt(d0*d1). Refuted without the proviso on swaps by a concrete history.
- **C96 A round trip costs the two commissions and rounding, no more and no less** (P_Round.v; status proved). P_Round.v; both swap transactions are inverted to the closed formula (C58), the two roundings of each step are bounded by division lemmas and the bounds multiplied out.
- **C97 A pair and the factory learn the true address of what they created** (P_Reply.v; status proved). ReplyWire.v transcribes cw-utils' protobuf reader (varint of at most nine bytes, masked wire type, length cast to 32 bits, UTF-8 check) and the two reply entry points on bytes. P_Reply.v states protobuf fields and varints as relations (leb128, field, told) and text over P_Json's UTF-8; both directions by induction on the bytes. C97_pair_told and C97_factory_told tie the bytes to World.reply, which takes the address.
- **C98 What a spender has been allowed is listed completely and correctly** (P_Mirror.v; status proved). TokenMirror.v transcribes the writes to ALLOWANCES_SPENDER and the query that reads it. C98_calls: if the maps agree a call has the same outcome with both maps and they agree afterwards (case analysis over the messages). C98_maps_agree lifts it to histories with the replay of a token's calls (Replay.v); C98_listing adds the paging argument of C84; owners have valid addresses because all callers in a history have (induction over executions).
- **C99 No cycle of swaps gains unless the pools' prices disagree by more than the commissions** (P_Cycle.v; status proved). `P_Cycle.v`.  The pools on a route are read off the factory's answers and the balances of the pair contracts (`pools_on`); `rates` is the product of 0.997 y/x as a rational number.  One hop pays at most 0.997 y n / x + 1 (from the bounds of C96 on the gross amount and the commission); induction over the hops of the quote (C31) gives the bound; C33 turns the quote into the executed cycle.  Cases: three pools with agreeing prices, and three with disagreeing prices where the cycle gains.
- **C100 What the factory, a pair and the router keep in their storage is read back as it was written** (P_Store.v; status proved). `Storage.v` writes the factory's entry points again over a byte store: Item and Map of cw-storage-plus (length-prefixed namespaces, load, may_load, save, range with namespace_upper_bound and Bound::ExclusiveRaw), the JSON of the types in the three state.rs files, cw2's entry; the pair and the router load their single item and then run the typed handler.  `P_Store.v`: `cell_key` lists the keys in full and is injective; `stored s st` says that the store holds the JSON of the state and nothing else.  Each value reads back (from C87's round trips), each entry point keeps `stored` and gives the same outcome; the range is the sorted, filtered list of pairs because both are strictly sorted with the same elements.  Cases: the bytes of the example factory, its pages, an accepted and a refused call.
- **C101 What a token keeps in its storage is read back as it was written** (P_TokenStore.v; status proved). `TokenStorage.v` transcribes cw20-base with every storage access on bytes (keys with length prefixes, JSON values, both allowance maps updated in the code's order). `P_TokenStore.v` states the entries, their keys and contents separately (`tcell_key`, `tcontent`, `tstored`), proves the keys apart, and shows each entry point a simulation of the typed token, composed from one lemma per storage operation; ranges over a prefix are compared as strictly sorted lists with the same elements. The history form replays the log on bytes. The condition on addresses is needed: a prefix ending in byte 255 would let cw-storage-plus's upper bound reach one foreign key.
- **C102 The whole chain run on bytes of storage is the chain of the model** (P_ByteWorld.v; status proved). ByteWorld.v repeats the chain of World.v line by line with stores instead of states (entry points of Storage.v and TokenStorage.v, empty stores for new contracts, queries read from the stores, third-party code given the bytes). P_ByteWorld.v states by relation (`held`) when a store belongs to a state and proves, by induction on fuel over the mutual dispatch functions, that every message and submessage has the outcome of the model and keeps the relation; contract by contract this rests on C100 and C101, on queriers that answer alike giving alike results, and on the number ranges being kept by each call. C102_answers: the answers contracts get; C102_exec: messages; C102_history and C102_carries: histories and the transfer of invariants, C102_supply as an instance; C102_same_steps: both directions where no run is given up. The cases run the example deployment on bytes. Simplification: a run in which a token would be called by or about an over-long address is given up as a whole instead of aborting that call. Messages themselves are carried as in World.v (their JSON is C87 and C88).
- **C103 The parts of a quote add up, and a maximum spread limits a swap's share of the pool** (P_Impact.v; status proved). P_Impact.v: `worth` and `impact` are bounds by products only. C103_parts_of_a_quote: from the exact formulas of C57 the sum is the worth and the spread is the impact. C103_max_spread_limits_size: from the conditions of C58 for an executed swap; C103_small_swaps_pass: conversely, from the same conditions, with the commission bounded by 0.3 percent. The case shows a swap accepted at 10 and refused at 9 percent for an eleventh of the reserve.
- **C104 A token answers every question from bytes to bytes** (P_SpenderWire.v; status proved). SpenderWire.v adds the JSON of AllSpenderAllowances and the query entry on bytes; P_SpenderWire.v combines C88 (questions and answers survive the wire), C98 (the second allowance map) and C101 (storage). C104_token_answers_in_bytes: all other questions; C104_granted_in_bytes: AllSpenderAllowances there and back; C104_listing_in_bytes: paging. The case asks and answers with literal bytes.
- **C105 Whoever asks the chain in bytes is told what the contracts' states say** (P_ByteQuery.v; status proved). ByteQuery.v: `bsmart`, the query entries on stores behind the JSON of QueryWire.v. C105_smart: equal to the model's smart query for every byte sequence, by C100 and C101 and because queriers that answer alike (C102_answers) give alike answers. C105_questions: with C102_history and C88, what a user reads after any history. The case asks the deployed example with literal bytes.
- **C106 A transaction sent as bytes does what its message says, and unreadable bytes do nothing** (P_ByteEntry.v; status proved). ByteEntry.v runs a call from message bytes (Wire.v decoders) on stored bytes (ByteWorld.v), and a whole transaction sent as bytes. P_ByteEntry.v joins C87 and C102: one call (C106_entry), a whole transaction (C106_transaction), unreadable bytes (C106_unreadable) and the messages sent in return (C106_replies_in_bytes). Inside a transaction, messages between contracts are carried typed; C106_replies_in_bytes says that their bytes would do the same.
- **C107 With all messages and all storage in bytes, the system behaves as the model** (P_WireWorld.v; status proved). WireWorld.v is the chain of ByteWorld.v with messages sent as bytes at every hop (execute and instantiate). P_WireWorld.v proves by induction on dispatch that it simulates the model, every message sent by the contracts being one that its bytes stand for (C87): C107_exec, C107_history, C107_carries; C107_same_steps: if all addresses are short texts, both chains make exactly the same steps. C107_any_bytes says that a user's bytes are always covered; C107_questions adds the queries of C105. Third-party code is handed typed messages and must send messages that stand for their own bytes (sends_own_bytes). Migrations carry the empty object (C108), and replies the protobuf of C97.
- **C108 Migrating to the same code changes no byte of storage, and only an empty message is accepted** (P_MigrateWire.v; status proved). MigrateWire.v reads MigrateMsg from bytes and runs the migrate functions on stored bytes. C108_accepted characterises the accepted texts by deleting white space, independently of the JSON reader; C108_storage_kept; C108_factory_message. In ByteWorld.v and WireWorld.v a migration carries no message: a MMigrate there is one whose message is the empty object, other messages failing before the code runs.

## Statements reworded after the proof attempt

The first wording of these properties is false of the code or too broad to be exact.
`properties.jsonl` now has the statement that is proved; where the first wording is false, a
theorem ending in `_refuted` gives the witness. First wordings:

- C01: Whenever a swap against reserves (offer, ask) pays out `return_amount`, the product of the two reserves after the swap is at least the product before it.
- C02: A swap against two non-empty reserves pays out (return + commission) at most the ask reserve, and leaves a non-zero ask reserve.
- C04: For non-empty reserves and any offer for which the answer is representable, Simulation answers instead of aborting; and it aborts exactly on empty offer reserves or arithmetic overflow.
- C06: After any sequence of swaps in both directions on one pair, it is impossible that one reserve is lower while the other is no higher than at the start; in particular swapping forth and back never yields more than was put in.
- C07: In any state, if Simulation of an offer of token T answers (r,s,c) then sending that amount of T to the pair with a Swap hook and no limits, before anything else changes, pays exactly r of the other asset to the chosen receiver.
- C08: If ReverseSimulation of `ask_amount` answers `offer_amount`, then a Simulation of `offer_amount` returns at least `ask_amount`.
- C19: A user can swap a native asset of a pair for the other asset, directly or through the router.
- C22: Two asset pairs get the same registry key only if they consist of the same two assets.
- C23: Every pair returned by the factory names a pair contract created by the factory whose own Pair query reports the same assets, decimals, requirements and LP token, and that LP token's only minter is the pair.
- C24: Repeatedly calling Pairs with start_after = last returned pair and any limit >= 1 enumerates all registered pairs in key order, each exactly once; a page never exceeds min(limit,30), default 10.
- C25: CreatePair with a native asset succeeds only if the owner registered its decimals while the factory held a non-zero balance of it, and the pair records exactly the registered decimals (resp. the cw20's reported decimals).
- C26: The factory never creates a pair both of whose assets are the same token.
- C27: The router accepts a list of operations iff it is non-empty and every operation's output is either the final output or consumed as input of a later operation.
- C32: After a successful hop the router's balance of the hop's offer asset is zero (all of it was sent to the pair).
- C33: If all hops of a cw20 route use different pairs and SimulateSwapOperations answers r, executing the route pays exactly r to the receiver.
- C35: A token instantiated with a cap never has a supply above it.
- C38: A transaction signed by s never lowers the native or cw20 balance of another ordinary account a, unless a granted s itself an allowance on that cw20; in particular approving a pair exposes nothing to third parties.
- C43: Decimal256 parsing accepts exactly [0-9]*(.[0-9]*)? with at most 18 fractional digits and gives the exact value, aborting on overflow.
- C45: Over any history of calls by anyone, for a pair with positive supply throughout, (reserve0*reserve1)/supply^2 never decreases.
- C48: In every state, a holder of LP shares whose pro-rata refund of both assets is at least one unit can withdraw successfully.
