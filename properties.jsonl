{"id": "C01", "title": "A swap never lowers the pool's constant product", "statement": "Whenever a swap against reserves (offer, ask) pays out `return_amount`, the product of the two reserves after the swap is at least the product before it, provided the offer reserve after the swap is at most 10^18 units or the swap pays a non-zero commission (which it does exactly when return+commission is at least 334 units); without that proviso the product can fall, by less than (offer reserve after)/10^18, and does for some reserves.", "quantifier": "all reserves and offer amounts that fit in Uint128 and for which the pair answers", "why_tests_cant": "128-bit amounts make the input space ~2^384; rounding corner cases are isolated points tests do not hit.", "anchors": ["contracts/halo-pair/src/contract.rs:compute_swap", "contracts/halo-pair/src/contract.rs:swap"]}
{"id": "C02", "title": "A swap never empties the ask side", "statement": "A swap pays out (return + commission) at most the ask reserve. It empties a non-empty ask reserve exactly when it charges no commission and the offer reserve after the swap exceeds offer*ask*10^18; in particular never when the ask reserve is at least 334 units. Emptying does occur for some tiny pools.", "quantifier": "all reserves and offer amounts", "why_tests_cant": "128-bit amounts make the input space ~2^384; rounding corner cases are isolated points tests do not hit.", "anchors": ["contracts/halo-pair/src/contract.rs:compute_swap"]}
{"id": "C03", "title": "A swap charges exactly 0.3 percent of the constant-product output", "statement": "For every answered simulation or swap, commission = floor(0.3 percent of the gross output), return = gross - commission, and the gross output is the constant-product output ask*offer/(offer_pool+offer) rounded down to a unit.", "quantifier": "all reserves and offer amounts", "why_tests_cant": "128-bit amounts make the input space ~2^384; rounding corner cases are isolated points tests do not hit.", "anchors": ["contracts/halo-pair/src/contract.rs:compute_swap", "contracts/halo-pair/src/contract.rs:COMMISSION_RATE"]}
{"id": "C04", "title": "A swap quote is always available for a live pool", "statement": "Simulation either answers or aborts, and it answers exactly when the offer reserve is non-empty, the two 256-bit intermediate products fit, and the spread is non-negative and fits 128 bits; a pool with 1 to 10^18 units on the offer side answers every offer whose value at the current price fits 128 bits. Larger pools can abort on offers whose answer is representable.", "quantifier": "all reserves and offers", "why_tests_cant": "128-bit amounts make the input space ~2^384; rounding corner cases are isolated points tests do not hit.", "anchors": ["contracts/halo-pair/src/contract.rs:compute_swap", "contracts/halo-pair/src/contract.rs:query_simulation"]}
{"id": "C05", "title": "Offering more never returns less", "statement": "With fixed reserves, the return amount is monotone in the offered amount, and monotone in the ask reserve.", "quantifier": "all pairs of offers, all reserves", "why_tests_cant": "128-bit amounts make the input space ~2^384; rounding corner cases are isolated points tests do not hit.", "anchors": ["contracts/halo-pair/src/contract.rs:compute_swap"]}
{"id": "C06", "title": "No profitable sequence of swaps", "statement": "After any sequence of swaps in both directions on one pair with reserves of at most 10^18 units, it is impossible that one reserve is lower while the other is no higher than at the start; for larger reserves the same holds as long as (number of swaps)*(largest reserve) is below 10^18 times the smaller initial reserve, and the product of reserves falls by at most that number/10^18. In particular swapping forth and back does not yield more than was put in unless the reserves differ by a factor of about 5*10^17.", "quantifier": "all finite sequences of swaps with all amounts", "why_tests_cant": "It must hold after every history of calls by every set of accounts; tests run a handful of scripted histories.", "anchors": ["contracts/halo-pair/src/contract.rs:compute_swap", "contracts/halo-pair/src/contract.rs:swap"]}
{"id": "C07", "title": "A quote is honoured", "statement": "In any reachable state, if Simulation of an offer of cw20 token T of this project answers (r,s,c) for a pair of two different assets and the amounts rescaled to a common number of decimals fit 128 bits, then sending that amount of T to the pair with a Swap hook and no limits, before anything else changes, succeeds and moves exactly that amount to the pair and exactly r of the other asset to the chosen receiver, and nothing else. If the rescaled amounts do not fit, the swap fails although Simulation answers.", "quantifier": "all pair states, balances, amounts and receivers", "why_tests_cant": "Two separate code paths (query and execute) read the pool in different states; equality must hold for every state.", "anchors": ["contracts/halo-pair/src/contract.rs:query_simulation", "contracts/halo-pair/src/contract.rs:swap", "contracts/halo-pair/src/contract.rs:receive_cw20"]}
{"id": "C08", "title": "A reverse quote is sufficient", "statement": "If ReverseSimulation of `ask_amount` answers `offer_amount`, then a Simulation of `offer_amount` returns at most `ask_amount`, and a Simulation of `offer_amount`+1 returns at least it (for asks up to 3*10^15 units; in general it is short by at most 1 + ask/10^18). The quote itself is not always sufficient. The same holds for what executed swaps of these amounts really pay, whatever their sender, receiver and limits.", "quantifier": "all reserves and ask amounts", "why_tests_cant": "128-bit amounts make the input space ~2^384; rounding corner cases are isolated points tests do not hit.", "anchors": ["contracts/halo-pair/src/contract.rs:compute_offer_amount", "contracts/halo-pair/src/contract.rs:query_reverse_simulation"]}
{"id": "C09", "title": "max_spread bounds the loss", "statement": "A swap that succeeds with max_spread m and no belief price has spread/(return+spread) <= m up to one part in 10^18; one that succeeds with belief price b has a return of at least (1-m) of offer/b up to rounding, after normalising decimals; one that violates the bound fails.", "quantifier": "all amounts, prices, spreads and decimals", "why_tests_cant": "128-bit amounts make the input space ~2^384; rounding corner cases are isolated points tests do not hit.", "anchors": ["contracts/halo-pair/src/contract.rs:assert_max_spread", "contracts/halo-pair/src/contract.rs:swap"]}
{"id": "C10", "title": "slippage_tolerance bounds the deposit ratio", "statement": "A provide_liquidity that succeeds with slippage tolerance t has both deposit ratios, scaled by (1-t), at most the pool ratios (up to 10^-18 rounding); tolerance above 1 is always refused.", "quantifier": "all deposits, reserves and tolerances", "why_tests_cant": "128-bit amounts make the input space ~2^384; rounding corner cases are isolated points tests do not hit.", "anchors": ["contracts/halo-pair/src/contract.rs:assert_slippage_tolerance", "contracts/halo-pair/src/contract.rs:provide_liquidity"]}
{"id": "C11", "title": "Minting never dilutes existing liquidity providers", "statement": "When the LP supply is positive, provide_liquidity mints at most a pro-rata share for each asset, so neither reserve-per-share decreases, and it refuses to mint zero shares.", "quantifier": "all deposits, reserves and supplies", "why_tests_cant": "128-bit amounts make the input space ~2^384; rounding corner cases are isolated points tests do not hit.", "anchors": ["contracts/halo-pair/src/contract.rs:provide_liquidity"]}
{"id": "C12", "title": "First deposit rules", "statement": "While the LP supply is zero, provide_liquidity succeeds only for a whitelisted sender whose deposits reach both configured minimums, and then mints exactly floor(sqrt(d0*d1)) > 0 shares.", "quantifier": "all senders, deposits, requirements and pool states", "why_tests_cant": "The guard must hold in every state with zero supply, including after all liquidity has been withdrawn.", "anchors": ["contracts/halo-pair/src/contract.rs:provide_liquidity", "packages/haloswap/src/asset.rs:CreatePairRequirements"]}
{"id": "C13", "title": "Withdrawal pays the pro-rata share, rounded down", "statement": "Burning `amount` of a supply S pays at most amount/S of each reserve and at least that minus (1 + reserve/10^18) units; remaining holders' reserve-per-share never decreases.", "quantifier": "all reserves, supplies and amounts", "why_tests_cant": "128-bit amounts make the input space ~2^384; rounding corner cases are isolated points tests do not hit.", "anchors": ["contracts/halo-pair/src/contract.rs:withdraw_liquidity"]}
{"id": "C14", "title": "Providing and withdrawing at once is never profitable", "statement": "Providing liquidity and burning exactly the minted shares returns at most what was deposited of each asset.", "quantifier": "all reserves, supplies and deposits", "why_tests_cant": "128-bit amounts make the input space ~2^384; rounding corner cases are isolated points tests do not hit.", "anchors": ["contracts/halo-pair/src/contract.rs:provide_liquidity", "contracts/halo-pair/src/contract.rs:withdraw_liquidity"]}
{"id": "C15", "title": "The last holder gets everything", "statement": "Burning the whole supply pays out both reserves exactly.", "quantifier": "all reserves and supplies", "why_tests_cant": "128-bit amounts make the input space ~2^384; rounding corner cases are isolated points tests do not hit.", "anchors": ["contracts/halo-pair/src/contract.rs:withdraw_liquidity"]}
{"id": "C16", "title": "Only the right token contract can trigger a swap or a withdrawal", "statement": "A Receive call with a Swap hook has an effect only if the caller is a cw20 asset of the pair; one with WithdrawLiquidity only if the caller is the pair's LP token; any other caller gets Unauthorized (or an error), with no message emitted.", "quantifier": "all callers, payloads, queriers and pair configurations", "why_tests_cant": "A forged Receive must be refused for every caller and payload.", "anchors": ["contracts/halo-pair/src/contract.rs:receive_cw20"]}
{"id": "C17", "title": "A swap pays exactly once, the right asset, to the right account", "statement": "A successful swap emits no message if the return is zero and otherwise exactly one transfer of the return amount of the other asset to `to` (or else the sender); it changes no pair storage.", "quantifier": "all pair states and inputs", "why_tests_cant": "Must hold on every execution path, for cw20 and native ask assets.", "anchors": ["contracts/halo-pair/src/contract.rs:swap", "packages/haloswap/src/asset.rs:Asset::into_msg"]}
{"id": "C18", "title": "Native deposits must be paid with the call", "statement": "provide_liquidity succeeds only if for every native asset the declared amount equals the coins attached; the shares are computed from reserves that exclude the deposit, and each cw20 asset is pulled from the sender for exactly the declared amount.", "quantifier": "all funds, assets and pool states", "why_tests_cant": "Every combination of native/cw20 assets, orders and attached coins.", "anchors": ["contracts/halo-pair/src/contract.rs:provide_liquidity", "packages/haloswap/src/asset.rs:assert_sent_native_token_balance"]}
{"id": "C19", "title": "Native coins can be swapped", "statement": "Native coins can never be offered: on every history, every call a pair contract accepts is ProvideLiquidity, a withdrawal through its LP token, or a Swap hook of a cw20 asset of the pair; a pair of two native coins never pays out except by withdrawal; and a router hop offering a native coin to a pair of this project always fails. (The intended property, that a user can swap a native asset, is false.)", "quantifier": "all pairs with a native asset, all messages and all histories", "why_tests_cant": "Showing that no message achieves it needs all messages.", "anchors": ["contracts/halo-pair/src/contract.rs:execute", "contracts/halo-router/src/operations.rs:asset_into_swap_msg", "packages/haloswap/src/pair.rs:ExecuteMsg"]}
{"id": "C20", "title": "Only the owner administers the factory", "statement": "Over any history, the factory's owner, code ids and native-decimals registry change only in calls sent by the account that is owner at that time, and exactly as requested.", "quantifier": "all histories of factory calls by all senders", "why_tests_cant": "It must hold after every history of calls by every set of accounts; tests run a handful of scripted histories.", "anchors": ["contracts/halo-factory/src/contract.rs:execute_update_config", "contracts/halo-factory/src/contract.rs:execute_add_native_token_decimals", "contracts/halo-factory/src/contract.rs:execute_migrate_pair"]}
{"id": "C21", "title": "One pair per unordered asset pair, never replaced", "statement": "Over any history a registered pair stays registered unchanged, and CreatePair for the same two assets, in either order, fails.", "quantifier": "all histories, both orders", "why_tests_cant": "It must hold after every history of calls by every set of accounts; tests run a handful of scripted histories.", "anchors": ["contracts/halo-factory/src/contract.rs:execute_create_pair", "contracts/halo-factory/src/contract.rs:reply", "contracts/halo-factory/src/state.rs:pair_key"]}
{"id": "C22", "title": "Different asset pairs never collide in the registry", "statement": "Two asset pairs get the same registry key only if they consist of the same two assets, provided no asset identifier involved is a proper prefix of another (always so for two cw20 pairs on a chain with fixed-length addresses). For native denoms that are prefixes of each other keys do collide, and then the second pair can never be created and is answered with the first.", "quantifier": "all pairs of asset infos", "why_tests_cant": "Keys are variable-length concatenations; only particular byte strings collide.", "anchors": ["contracts/halo-factory/src/state.rs:pair_key", "packages/haloswap/src/asset.rs:AssetInfoRaw::as_bytes"]}
{"id": "C23", "title": "Registry entries describe a real pair", "statement": "As long as the factory's code ids stand for the pair and token contracts of this project (the owner can change them), every pair the factory lists is a pair contract created and administered by the factory whose own Pair query reports the same assets, decimals, requirements and LP token, and that LP token's only minter is the pair.", "quantifier": "all reachable chain states", "why_tests_cant": "It must hold after every history of calls by every set of accounts; tests run a handful of scripted histories.", "anchors": ["contracts/halo-factory/src/contract.rs:reply", "contracts/halo-pair/src/contract.rs:instantiate", "contracts/halo-pair/src/contract.rs:reply"]}
{"id": "C24", "title": "Paging through Pairs visits every pair exactly once", "statement": "If no registry key is a proper prefix of another, repeatedly calling Pairs with start_after = last returned pair and any limit >= 1 enumerates all registered pairs in key order, each exactly once. If one is, entries can be skipped. A page never exceeds min(limit,30), default 10.", "quantifier": "all registries and limits", "why_tests_cant": "Skipped or repeated entries depend on how one key extends another.", "anchors": ["contracts/halo-factory/src/state.rs:read_pairs", "contracts/halo-factory/src/state.rs:calc_range_start", "contracts/halo-factory/src/contract.rs:query_pairs"]}
{"id": "C25", "title": "Native assets need registered decimals", "statement": "CreatePair with a native asset succeeds only if the owner registered its decimals while the factory held a non-zero balance of it, the decimals used are those registered last, and (with the project's code ids) the pair the factory lists records exactly those, respectively the decimals the cw20 reported at that time.", "quantifier": "all histories and assets", "why_tests_cant": "It must hold after every history of calls by every set of accounts; tests run a handful of scripted histories.", "anchors": ["contracts/halo-factory/src/contract.rs:execute_create_pair", "packages/haloswap/src/asset.rs:query_decimals", "contracts/halo-factory/src/contract.rs:execute_add_native_token_decimals"]}
{"id": "C26", "title": "A pair always has two different assets", "statement": "CreatePair with equal asset infos fails, and a pair created from assets whose cw20 addresses are written in normalized form has two different assets; with another spelling of one address the factory does create a pair of a token with itself.", "quantifier": "all asset infos, including different spellings of one address", "why_tests_cant": "Depends on every possible address encoding.", "anchors": ["contracts/halo-factory/src/contract.rs:execute_create_pair"]}
{"id": "C27", "title": "Route validation", "statement": "The router accepts a list of operations iff it is non-empty and every operation's output is either the final output or consumed as input of a later operation (assets compared by their display text). So every chain of operations is accepted, but some accepted lists are not chains.", "quantifier": "all operation lists", "why_tests_cant": "Operation lists of any length and any aliasing between assets.", "anchors": ["contracts/halo-router/src/contract.rs:assert_operations"]}
{"id": "C28", "title": "minimum_receive is enforced", "statement": "If a route with minimum_receive m succeeds, the receiver's balance of the target asset at the end is at least m more than when the router started the route.", "quantifier": "all chain states, routes and receivers", "why_tests_cant": "Holds across nested contract calls for any route length.", "anchors": ["contracts/halo-router/src/contract.rs:execute_swap_operations", "contracts/halo-router/src/contract.rs:assert_minium_receive"]}
{"id": "C29", "title": "Internal router steps cannot be called by others", "statement": "ExecuteSwapOperation fails for every caller but the router itself.", "quantifier": "all callers and operations", "why_tests_cant": "All callers.", "anchors": ["contracts/halo-router/src/operations.rs:execute_swap_operation"]}
{"id": "C30", "title": "A route is executed hop by hop in order", "statement": "A successful ExecuteSwapOperations emits exactly one self-call per operation in the given order, only the last carrying a recipient, plus exactly one minimum check after them iff requested; the recipient is `to` or else the sender.", "quantifier": "all operation lists, senders, options", "why_tests_cant": "Lists of any length.", "anchors": ["contracts/halo-router/src/contract.rs:execute_swap_operations"]}
{"id": "C31", "title": "Route simulations compose pair simulations", "statement": "SimulateSwapOperations equals the left-to-right composition of the pairs' Simulation answers; the reverse query equals the right-to-left composition of ReverseSimulation.", "quantifier": "all routes, amounts and queriers", "why_tests_cant": "Lists of any length.", "anchors": ["contracts/halo-router/src/contract.rs:simulate_swap_operations", "contracts/halo-router/src/contract.rs:reverse_simulate_swap_operations"]}
{"id": "C32", "title": "Routes leave nothing behind", "statement": "After a successful hop at a pair of this project with two different assets the router's balance of the hop's offer asset is zero: all of it was sent to the pair, which paid exactly the constant-product answer for that amount to the hop's receiver, and nothing else moved.", "quantifier": "all states and operations", "why_tests_cant": "Depends on every prior balance.", "anchors": ["contracts/halo-router/src/operations.rs:execute_swap_operation"]}
{"id": "C33", "title": "A route simulation is honoured", "statement": "In a reachable state let a cw20 route be a chain of hops over different pairs of this project with different live assets whose rescaled amounts fit 128 bits, let the router hold none of the route's offered assets, and let SimulateSwapOperations answer r > 0. Then sending the amount to the router with this route succeeds (also with minimum_receive r), pays exactly r of the target asset to the receiver, takes exactly the amount from the sender, and changes no other balance except those of the pairs on the route. With a repeated pair, or if the router holds some of an offered asset, what is paid differs from the quote.", "quantifier": "all states, routes with distinct pairs", "why_tests_cant": "Routes of any length over any pools.", "anchors": ["contracts/halo-router/src/contract.rs:simulate_swap_operations", "contracts/halo-router/src/contract.rs:execute_swap_operations", "contracts/halo-pair/src/contract.rs:swap"]}
{"id": "C34", "title": "Token supply is the sum of balances", "statement": "In every reachable state, each token's total supply equals the sum of all its balances.", "quantifier": "all histories", "why_tests_cant": "It must hold after every history of calls by every set of accounts; tests run a handful of scripted histories.", "anchors": ["contracts/halo-token/src/contract.rs:instantiate", "contracts/halo-token/src/contract.rs:execute"]}
{"id": "C35", "title": "The mint cap is never exceeded", "statement": "Once a token has a cap, its supply never exceeds it, whatever happens to the minter role afterwards.", "quantifier": "all histories", "why_tests_cant": "It must hold after every history of calls by every set of accounts; tests run a handful of scripted histories.", "anchors": ["contracts/halo-token/src/contract.rs:instantiate", "contracts/halo-token/src/contract.rs:execute"]}
{"id": "C36", "title": "LP tokens are minted only by providing liquidity", "statement": "The supply of a pair's LP token increases only in a ProvideLiquidity call to that pair.", "quantifier": "all histories and messages", "why_tests_cant": "It must hold after every history of calls by every set of accounts; tests run a handful of scripted histories.", "anchors": ["contracts/halo-pair/src/contract.rs:provide_liquidity", "contracts/halo-pair/src/contract.rs:instantiate", "contracts/halo-token/src/contract.rs:execute"]}
{"id": "C37", "title": "Token instantiation validation", "statement": "A token instantiates iff its name has 3..50 bytes, symbol 3..12 bytes from [a-zA-Z-], decimals <= 18, initial holders are distinct valid addresses and the initial supply does not exceed the cap.", "quantifier": "all instantiate messages", "why_tests_cant": "All strings.", "anchors": ["packages/haloswap/src/token.rs:validate", "packages/haloswap/src/token.rs:is_valid_symbol", "packages/haloswap/src/token.rs:is_valid_name", "contracts/halo-token/src/contract.rs:instantiate"]}
{"id": "C38", "title": "Nobody spends another account's tokens", "statement": "A transaction signed by s never lowers a native balance of another ordinary account a, and lowers a's balance of a cw20 only if a granted an allowance on that cw20 to s, to a third-party contract, or to an address without a contract; in particular approving a pair, or any other contract of this project, exposes nothing to third parties.", "quantifier": "all chain states, signers and messages, including nested calls", "why_tests_cant": "It must hold after every history of calls by every set of accounts; tests run a handful of scripted histories.", "anchors": ["contracts/halo-pair/src/contract.rs:provide_liquidity", "contracts/halo-router/src/operations.rs:execute_swap_operation", "contracts/halo-token/src/contract.rs:execute"]}
{"id": "C39", "title": "Decimal256 text round-trips", "statement": "Parsing the printed form of any Decimal256 gives back the same value; the printed form is the customary one (no superfluous zeros in front, none at the end of the fraction, no lone dot), and it is the only text in that form which is parsed as this value. The same holds for Uint256 and for the Decimal of cosmwasm-std.", "quantifier": "all 2^256 values", "why_tests_cant": "Domain of 2^256 values.", "anchors": ["packages/bignumber/src/math.rs:Decimal256::from_str", "packages/bignumber/src/math.rs:Decimal256 Display"]}
{"id": "C40", "title": "Decimal to Decimal256 conversion is exact", "statement": "Converting a cosmwasm Decimal to Decimal256 (and back) preserves the value, and converting a Decimal256 too large for Decimal aborts.", "quantifier": "all values", "why_tests_cant": "Conversion goes through text; domain 2^128.", "anchors": ["packages/bignumber/src/math.rs:From<Decimal> for Decimal256", "packages/bignumber/src/math.rs:From<Decimal256> for Decimal"]}
{"id": "C41", "title": "Uint256 and u128 conversions", "statement": "u128 -> Uint256 -> u128 is the identity; Uint256 -> u128 aborts exactly above 2^128-1.", "quantifier": "all values", "why_tests_cant": "Limb-level code over a 2^256 domain.", "anchors": ["packages/bignumber/src/math.rs:split_u128", "packages/bignumber/src/math.rs:From<Uint256> for u128"]}
{"id": "C42", "title": "Big-number arithmetic is exact or aborts", "statement": "Each Uint256/Decimal256 operation returns the exact mathematical result rounded down, or aborts when that does not fit 256 bits (or the divisor is zero, or the difference negative); it never wraps.", "quantifier": "all operands", "why_tests_cant": "Domain 2^512.", "anchors": ["packages/bignumber/src/math.rs:ops impls"]}
{"id": "C43", "title": "Accepted decimal texts", "statement": "Decimal256 parsing accepts exactly the texts [0-9]*(.[0-9]*)? with at most 18 fractional digits whose value is below 2^256/10^18, and gives the exact value. A text of that form with a larger value aborts if its whole part is below 2^256 and is refused with an error otherwise; all other texts are refused with an error.", "quantifier": "all strings", "why_tests_cant": "All strings.", "anchors": ["packages/bignumber/src/math.rs:Decimal256::from_str"]}
{"id": "C44", "title": "Native coins are conserved", "statement": "No transaction changes the total amount of any native denom.", "quantifier": "all chain states and messages", "why_tests_cant": "It must hold after every history of calls by every set of accounts; tests run a handful of scripted histories.", "anchors": ["packages/haloswap/src/asset.rs:into_msg", "contracts/halo-pair/src/contract.rs"]}
{"id": "C45", "title": "LP share value never decreases", "statement": "Over any history of calls by anyone, for a pair of two different assets (each native or a halo-token contract) with a halo-token LP token and positive LP supply throughout, (reserve0*reserve1)/supply^2 never decreases, provided every swap on the pair either leaves at most 10^18 base units of the offered token in the pool or pays a commission. A commission-free dust swap in a larger pool can lower it.", "quantifier": "all histories by all accounts, including donations, swaps, deposits, withdrawals, burns and router use", "why_tests_cant": "It must hold after every history of calls by every set of accounts; tests run a handful of scripted histories.", "anchors": ["contracts/halo-pair/src/contract.rs:swap", "contracts/halo-pair/src/contract.rs:provide_liquidity", "contracts/halo-pair/src/contract.rs:withdraw_liquidity"]}
{"id": "C46", "title": "Reserves leave a pair only through swaps and withdrawals", "statement": "A call that is neither a swap nor a withdrawal on a pair never lowers any of the pair's balances.", "quantifier": "all states and messages", "why_tests_cant": "It must hold after every history of calls by every set of accounts; tests run a handful of scripted histories.", "anchors": ["contracts/halo-pair/src/contract.rs"]}
{"id": "C47", "title": "A pair's configuration is immutable", "statement": "After creation, a pair's assets, decimals, requirements, LP token and address never change.", "quantifier": "all histories", "why_tests_cant": "It must hold after every history of calls by every set of accounts; tests run a handful of scripted histories.", "anchors": ["contracts/halo-pair/src/contract.rs:instantiate", "contracts/halo-pair/src/contract.rs:reply"]}
{"id": "C48", "title": "Liquidity is never locked", "statement": "In every reachable state, a holder of LP shares of a pair (two different assets other than the LP token) whose computed refund of both assets is at least one unit can withdraw successfully and receives exactly these refunds, the shares being burnt. The computed refund is at least one unit if the exact pro-rata share is at least two units (reserves up to 10^18); a share worth exactly one unit can be unwithdrawable.", "quantifier": "all reachable states and holders", "why_tests_cant": "It must hold after every history of calls by every set of accounts; tests run a handful of scripted histories.", "anchors": ["contracts/halo-pair/src/contract.rs:withdraw_liquidity", "contracts/halo-pair/src/contract.rs:receive_cw20"]}
{"id": "C49", "title": "A token's balances and supply are the sum of its calls", "statement": "Over any history, for every token and account: the balance at the end plus all amounts that successful Transfer, Send, Burn, TransferFrom, SendFrom and BurnFrom calls to the token take from the account equals the balance at the start (or at creation) plus all amounts that Transfer, Send, TransferFrom, SendFrom and Mint calls pay to it; supply at the end plus all burnt equals supply at the start plus all minted.", "quantifier": "all histories, tokens and accounts", "why_tests_cant": "It must hold for every interleaving of calls of every set of accounts and contracts; tests run a handful of scripted histories.", "anchors": ["contracts/halo-token/src/contract.rs:execute", "contracts/halo-token/src/contract.rs:instantiate"]}
{"id": "C50", "title": "Allowances bound what a spender can take", "statement": "Over any history, what is left of an owner's allowance for a spender plus everything the spender took with TransferFrom, SendFrom and BurnFrom is at most the allowance at the start plus everything the owner granted by IncreaseAllowance, and it is less only by what the owner took back with DecreaseAllowance (so without such calls it is exactly that); and each such call found, when it ran, an allowance that had not expired and covered the amount, and an owner balance covering it.", "quantifier": "all histories, tokens, owners and spenders", "why_tests_cant": "It must hold for every interleaving of grants and uses, including the pairs' own TransferFrom calls; tests run a handful of scripted histories.", "anchors": ["contracts/halo-token/src/contract.rs:execute", "contracts/halo-pair/src/contract.rs:provide_liquidity"]}
{"id": "C51", "title": "Token metadata is immutable and the minter role belongs to the minter", "statement": "Over any history a token keeps its name, symbol and decimals; every successful Mint or UpdateMinter call was sent by the account that was the minter at that moment; the role changes only in an UpdateMinter call, keeps its cap, and once given up never comes back. From then on nothing is ever minted and the supply changes only by what is burnt.", "quantifier": "all histories and tokens", "why_tests_cant": "It must hold after every history of calls by every set of accounts; tests run a handful of scripted histories.", "anchors": ["contracts/halo-token/src/contract.rs:execute", "packages/haloswap/src/token.rs:InstantiateMsg"]}
{"id": "C52", "title": "Only the factory owner can have a pair's code replaced", "statement": "Over any history, with third-party contracts and third-party code to migrate to, a pair whose admin is a factory remains a pair with that admin, unless the log contains a MigratePair call to the factory naming the pair, sent by the account that owned the factory at that moment. (Provided the factory's own code is not replaced by the factory's admin.)", "quantifier": "all chains, reachable states and histories", "why_tests_cant": "It must hold for every sequence of messages of every set of accounts and unknown contracts, including migrate and admin messages; tests try a few unauthorized calls.", "anchors": ["contracts/halo-factory/src/contract.rs:execute_migrate_pair", "contracts/halo-factory/src/contract.rs:execute_create_pair"]}
{"id": "C53", "title": "The code of an LP token can never be replaced", "statement": "In every reachable state the LP token of every pair is a contract without an admin, and over every later history it keeps its code and gets no admin, whoever sends what; not even the factory's owner, who can have the pair's own code replaced, can replace the LP token's.", "quantifier": "all chains, reachable states, pairs and histories", "why_tests_cant": "It must hold for every sequence of messages of every set of accounts and unknown contracts; tests cannot exclude some sequence that gains control.", "anchors": ["contracts/halo-pair/src/contract.rs:instantiate", "contracts/halo-pair/src/contract.rs:reply", "contracts/halo-factory/src/contract.rs:execute_migrate_pair"]}
{"id": "C54", "title": "What a deposit costs, what it earns, and exactly when it is accepted", "statement": "In every reachable state, for every pair of two different assets none of which is its own LP token: a successful ProvideLiquidity takes exactly the declared amounts from the sender, mints to the receiver the LP tokens earned on the reserves before the deposit (square root of the product for the first deposit, else the smaller of the two pro-rata shares, rounded down), raises the LP supply by as much, reduces the pair's allowances by what it drew, and moves nothing else, except that coins attached in denoms that belong to neither asset also stay with the pair. It succeeds if and only if the coins can be attached and match the declared native amounts, the sender holds and has allowed the amounts, the receiver is a valid address, the slippage tolerance accepts, the first deposit is by a whitelisted sender above the minimums, the later ones meet non-empty reserves, no amount exceeds 128 bits and at least one LP token is earned.", "quantifier": "all chains, reachable states, pairs, senders, receivers, declared assets, tolerances and attached coins", "why_tests_cant": "It is an equivalence over all states and arguments, including which other balances do not change; tests sample a few deposits.", "anchors": ["contracts/halo-pair/src/contract.rs:provide_liquidity", "packages/haloswap/src/asset.rs:assert_sent_native_token_balance", "contracts/halo-token/src/contract.rs:execute"]}
{"id": "C55", "title": "A route is exactly its hops, and the router keeps nothing", "statement": "In every reachable state, whatever list of operations over known pairs is sent to the router with a cw20 Send, chain-shaped or not: if the transaction succeeds, its whole effect is the Send to the router followed by one trade per operation, in order, each offering everything the router then holds of the operation's offer asset, paid by the pair the factory knows, to the router before the last operation and to the receiver in the last. If the operations form a chain, the router ends with none of any asset offered on the route, and of every other asset it holds what it held before plus the sent amount if that asset is the one sent.", "quantifier": "all chains, reachable states, routers, senders, tokens, amounts, lists of operations, minimums and receivers", "why_tests_cant": "It ranges over all lists of operations and all states, and says what does not move; tests try a few two-hop routes.", "anchors": ["contracts/halo-router/src/contract.rs:execute_swap_operations", "contracts/halo-router/src/operations.rs:execute_swap_operation", "contracts/halo-router/src/contract.rs:receive_cw20"]}
{"id": "C56", "title": "Route quotes are monotone, and reverse route quotes never exceed the target", "statement": "In every reachable state and for every list of operations over known pairs: a larger offer is never quoted a smaller return by SimulateSwapOperations, and the offer that ReverseSimulateSwapOperations names for a wanted amount is quoted at most that amount by SimulateSwapOperations. Reverse quotes thus err on the low side only: the named offer may fall short of the wanted amount but never overpays for it.", "quantifier": "all chains, reachable states, routers, lists of operations and amounts", "why_tests_cant": "The rounding errors of the hops accumulate along the route and depend on all reserves; tests compare a few numbers.", "anchors": ["contracts/halo-router/src/contract.rs:simulate_swap_operations", "contracts/halo-router/src/contract.rs:reverse_simulate_swap_operations", "contracts/halo-pair/src/contract.rs:compute_offer_amount"]}
{"id": "C57", "title": "Pool, Simulation and ReverseSimulation queries report the truth", "statement": "In every reachable state, for every pair whose assets and LP token are contracts of this repository: the Pool query answers exactly when both reserves fit 128 bits, and then with what the pair actually holds of its two assets, in their stored order, and with the LP token's actual total supply. The Simulation query answers exactly when the amounts fit and the price computation goes through, and then with the closed-form return, spread and commission on what the pair actually holds. The ReverseSimulation query answers exactly when the asked amount with the commission added is below the reserve and the amounts fit, and then with the closed-form offer, spread and commission on what the pair actually holds.", "quantifier": "all chains, reachable states, pairs, offered assets and amounts", "why_tests_cant": "It is an equivalence over all states and amounts; tests mock the balances that the query reads.", "anchors": ["contracts/halo-pair/src/contract.rs:query_pool", "contracts/halo-pair/src/contract.rs:query_simulation", "contracts/halo-pair/src/contract.rs:compute_swap", "contracts/halo-pair/src/contract.rs:query_reverse_simulation", "contracts/halo-pair/src/contract.rs:compute_offer_amount"]}
{"id": "C58", "title": "Exactly which cw20 swaps are executed, and what they do", "statement": "In every reachable state, for every cw20 Send of a Swap hook to a pair by an account other than the pair: it succeeds if and only if the amount is positive and owned by the sender, the ask reserve fits 128 bits, limits and belief price are in range, the named receiver is a valid address, the price computation goes through, and the closed-form return and spread are within the sender's limits (a maximum spread alone bounds the shortfall relative to the current price; with a belief price it bounds the shortfall relative to the believed price; a belief price alone is ignored; the amounts rescaled to common decimals must fit 128 bits). If it succeeds, the offer goes to the pair, the closed-form return goes to the receiver, and no other balance of any account changes.", "quantifier": "all chains, reachable states, pairs, senders, amounts, belief prices, maximum spreads and receivers", "why_tests_cant": "It is an equivalence over all states and arguments including all overflow cases; tests sample a few swaps and limits.", "anchors": ["contracts/halo-pair/src/contract.rs:swap", "contracts/halo-pair/src/contract.rs:assert_max_spread", "contracts/halo-pair/src/contract.rs:receive_cw20"]}
{"id": "C59", "title": "A withdrawal is executed exactly when the sender has the LP tokens and each refund is at least one unit; the holder of all LP tokens gets everything", "statement": "In every reachable state, a user who sends LP tokens to the pair to withdraw succeeds if and only if they hold that (positive) number of LP tokens, both computed refunds are at least one unit, and the reserves fit 128 bits. An executed withdrawal destroys exactly the LP tokens sent and moves exactly the two refunds from the pair to the sender, and no other balance of any asset changes. In particular a user holding all LP tokens can withdraw both (nonempty) reserves entirely, so no unit stays locked in the pair whatever happened before.", "quantifier": "all chains, reachable states, pairs over native coins and tokens of this code base, senders and amounts", "why_tests_cant": "Both directions quantify over every reachable state and amount, including states reached through arbitrary earlier swaps, deposits and donations; a test fixes one pool.", "anchors": ["contracts/halo-pair/src/contract.rs:withdraw_liquidity", "contracts/halo-pair/src/contract.rs:receive_cw20", "contracts/halo-token/src/contract.rs:execute"]}
{"id": "C60", "title": "CreatePair succeeds exactly for two different assets with known decimals and no pair yet, and creates exactly a truthful pair and an empty LP token", "statement": "For two assets that are native coins or tokens of this code base, and a factory configured with the pair and token code of this code base, CreatePair by anybody succeeds if and only if the assets differ, the decimals of both are known and fit 8 bits, the numbers of the message fit their types, and the factory's Pair query finds nothing for the two assets. It then creates a pair (administered by the factory) and an LP token with zero supply and the pair as its only, uncapped minter, both at addresses not used before. Pair queries to the factory in either order of assets and to the pair itself return the given assets, the two new addresses, the true decimals and the given requirements. All previously successful Pair queries keep their answers, the factory's configuration, all other contracts and all coin balances are unchanged.", "quantifier": "all chains, reachable states, factories, senders, asset pairs and requirements", "why_tests_cant": "The multi-step creation (factory, pair, token, two replies) is only mocked in tests; exactness needs every reachable state and every input.", "anchors": ["contracts/halo-factory/src/contract.rs:execute_create_pair", "contracts/halo-factory/src/contract.rs:reply", "contracts/halo-pair/src/contract.rs:instantiate", "contracts/halo-pair/src/contract.rs:reply"]}
{"id": "C61", "title": "What a pair reports about a swap, deposit or withdrawal is exactly what happened", "statement": "Every executed swap, deposit and withdrawal by a user makes the pair report exactly one event. Its attributes name the true sender, receiver and assets, and its numbers are the true ones: the offer and return amounts are exactly the amounts that moved, return plus commission is the constant-product amount, the spread is the difference to the spot price, the share reported by a deposit is exactly the amount of LP tokens created and received, and a withdrawal's withdrawn_share and refund_assets are exactly the LP tokens destroyed and the amounts paid out. Each reported decimal string denotes only one number, so an off-chain indexer that adds up events gets the true totals.", "quantifier": "all chains, reachable states, pairs over native coins and tokens of this code base, users, amounts and options", "why_tests_cant": "Tests compare attributes of single mocked calls and never compare them with balances after the emitted messages ran; here reported numbers and ledger changes are related for every state and input.", "anchors": ["contracts/halo-pair/src/contract.rs:swap", "contracts/halo-pair/src/contract.rs:provide_liquidity", "contracts/halo-pair/src/contract.rs:withdraw_liquidity", "packages/haloswap/src/asset.rs:Display for Asset"]}
{"id": "C62", "title": "The order in which the two assets are named does not matter for deposits and pair creation", "statement": "ProvideLiquidity with the two assets (and amounts) listed in either order succeeds in exactly the same states and reaches exactly the same state, so a depositor cannot be credited for the wrong amounts by listing assets in another order than the pair. CreatePair for two assets succeeds for one order exactly if it succeeds for the other.", "quantifier": "all chains, reachable states, pairs with two different assets, senders, amounts, options and attached coins", "why_tests_cant": "An equivalence of two runs over all states and inputs; a test would need to try both orders for every pool and deposit.", "anchors": ["contracts/halo-pair/src/contract.rs:provide_liquidity", "contracts/halo-factory/src/contract.rs:execute_create_pair", "packages/haloswap/src/asset.rs:pair_key"]}
{"id": "C63", "title": "Exactly when token calls are executed and exactly what they change", "statement": "In every reachable state and for every sender, a Transfer, Burn, Mint, IncreaseAllowance, DecreaseAllowance, TransferFrom, BurnFrom or UpdateMinter call to a token of this code base succeeds if and only if its documented conditions hold (enough balance, an unexpired sufficient allowance, the minter role and cap, a valid address, a positive amount where required, numbers in range); it is never refused for another reason. An executed call changes exactly the balances, the supply, the one allowance (amount and expiration) and the minter it names, and nothing else on the chain. Send (SendFrom) has exactly the effect of a Transfer (TransferFrom) to the contract followed by the Receive call.", "quantifier": "all chains, reachable states, tokens, senders and messages", "why_tests_cant": "Both directions quantify over all states and messages; in particular that no arithmetic overflow can block a transfer needs the invariant that balances add up to the supply.", "anchors": ["contracts/halo-token/src/contract.rs:execute"]}
{"id": "C64", "title": "Exactly when the owner's calls to a factory are executed and exactly what they change", "statement": "The Config query of a factory always answers. UpdateConfig succeeds if and only if the sender is the owner the Config query reports, the new owner (if given) is a valid address and the code ids are in range; it changes exactly the given settings as seen by the Config query. AddNativeTokenDecimals succeeds if and only if the sender is the owner, the factory holds some of the coin and the numbers are in range; it changes exactly the answer of NativeTokenDecimals for that coin. MigratePair of a pair succeeds if and only if the sender is the owner, the factory administers the pair and the (given or configured) code is pair code; migrating to pair code changes no state and no balance. In all cases no other query answer of the factory, no other contract and no coin balance changes.", "quantifier": "all chains, reachable states, factories, senders and arguments", "why_tests_cant": "Tests check single calls against mocked storage; here executability and the complete effect are characterised in every reachable state of the whole chain, and the Config query's success rests on an invariant over all histories.", "anchors": ["contracts/halo-factory/src/contract.rs:execute_update_config", "contracts/halo-factory/src/contract.rs:execute_add_native_token_decimals", "contracts/halo-factory/src/contract.rs:execute_migrate_pair", "contracts/halo-factory/src/contract.rs:query_config"]}
{"id": "C65", "title": "Apart from swaps nothing lowers what an LP token is worth on either side", "statement": "Take a pair of two different assets (native coins or tokens of this code base) and any history of transactions in which no swap is executed on that pair and the LP supply stays positive. Then on each of the two sides separately the reserve per LP token at the end is at least what it was at the start: deposits, withdrawals, donations, burns and anything else done by anybody cannot dilute the holders of LP tokens on either side. Hence what a given number of LP tokens can be redeemed for falls on neither side, except for rounding by at most one unit plus one unit per 10^18 units of the reserve.", "quantifier": "all chains, reachable states and histories without swaps on the pair, all numbers of LP tokens", "why_tests_cant": "The claim is about every interleaving of calls by arbitrary accounts and contracts; a test only replays a few sequences.", "anchors": ["contracts/halo-pair/src/contract.rs:provide_liquidity", "contracts/halo-pair/src/contract.rs:withdraw_liquidity"]}
{"id": "C66", "title": "All LP tokens together never claim more than the reserves", "statement": "In every reachable state with a positive LP supply, and for any set of accounts, the amounts of an asset that these accounts could redeem for their LP tokens add up to at most the pair's reserve of that asset.", "quantifier": "all chains, reachable states, pairs, assets and finite sets of accounts", "why_tests_cant": "It quantifies over all holders and states and needs that LP balances add up to the supply after every history.", "anchors": ["contracts/halo-pair/src/contract.rs:withdraw_liquidity", "contracts/halo-token/src/contract.rs:execute"]}
{"id": "C67", "title": "What a depositor can get back from a running pool", "statement": "If LP tokens exist and a deposit is executed, it earns at least one LP token, and on at least one of its two sides the depositor could redeem at once all they deposited except for at most the worth of one LP token plus rounding (two units, and one per 10^18 units of reserve); the earned LP tokens are worth more than half of what was deposited on that side. If a slippage tolerance t is given, this holds on both sides for the fraction 1 - t of the deposit (with a slightly larger rounding term). The stronger claim that a proportional deposit loses only a rounding unit is false: if LP tokens have been made expensive by donations, close to half of the deposit can be lost even with tolerance zero.", "quantifier": "all chains, reachable states, pairs, depositors, amounts and tolerances", "why_tests_cant": "The bounds hold for all reserves, supplies and amounts; the worst cases arise from donated reserves and rounding that tests do not sample.", "anchors": ["contracts/halo-pair/src/contract.rs:provide_liquidity", "contracts/halo-pair/src/contract.rs:assert_slippage_tolerance", "contracts/halo-pair/src/contract.rs:withdraw_liquidity"]}
{"id": "C68", "title": "The first liquidity of a pair comes from a whitelisted depositor and meets the minimums", "statement": "If the LP token of a pair has supply zero at the start of a history and a positive supply at its end, then during the history a deposit into the pair was executed whose sender is on the whitelist given when the pair was created and whose two amounts are each at least the minimum given for that asset. No other call by anybody, directly or through other contracts, can bring the first LP tokens into existence.", "quantifier": "all chains, reachable states, pairs and histories of transactions", "why_tests_cant": "It excludes every other way, through any contract and any sequence of calls, to create the first LP tokens; tests can only try some.", "anchors": ["contracts/halo-pair/src/contract.rs:provide_liquidity", "contracts/halo-token/src/contract.rs:execute", "contracts/halo-factory/src/contract.rs:execute_create_pair"]}
{"id": "C69", "title": "What is sent to a token contract or to the factory stays there forever", "statement": "Over every history of transactions, no balance of a token contract or of a factory ever falls, neither of a native coin nor of a halo token: no call by anybody, the owner and the minter included, can move assets out of these contracts.", "quantifier": "all chains, reachable states, histories, token and factory contracts and assets", "why_tests_cant": "The claim says that no sequence of calls exists that recovers the assets; a test cannot exhaust them.", "anchors": ["contracts/halo-token/src/contract.rs:execute", "contracts/halo-factory/src/contract.rs:execute"]}
{"id": "C70", "title": "Splitting a swap hardly matters", "statement": "From the same state, compare one executed swap of a+b units of a token with two executed swaps of a and then b units in the same direction on the same pair, with any limits and receivers other than the pair. Together the two swaps pay out at most the commission of the first one plus two units more than the single swap, and at most two units less. The same for any number of parts: k executed swaps in one direction, by anybody, pay out together at most what the curve gives for the whole amount before commission (plus one unit; without it if the offered side stays within 10^18 units), so at most the commission of the single swap plus one unit more than it, and at most 2(k-1) units less.", "quantifier": "all chains, reachable states, pairs, assets, amounts, numbers of parts (up to 10^18), senders, receivers and limits", "why_tests_cant": "It relates different executions and bounds the accumulated rounding for all reserves and amounts.", "anchors": ["contracts/halo-pair/src/contract.rs:swap", "contracts/halo-pair/src/contract.rs:compute_swap"]}
{"id": "C71", "title": "What a passive liquidity provider keeps", "statement": "Take a pair of two different assets and any history in which the LP supply stays positive (with the same rare exception for commission-free swaps on reserves above 10^18 as in C45). Then a given number of LP tokens is at the end redeemable, up to rounding, for at least as much as at the start on at least one of the two sides. Moreover, whatever prices the two assets have in the end, the reserves behind each LP token are worth at least 2*sqrt(P*x*y)/s, where x, y and s are the reserves and LP supply at the start and P is the price; at the pool price of the start they are worth at least what they were worth then.", "quantifier": "all chains, reachable states, histories, pairs, numbers of LP tokens and prices", "why_tests_cant": "The bound holds for every interleaving of calls by anybody and for every price; tests sample a few.", "anchors": ["contracts/halo-pair/src/contract.rs:swap", "contracts/halo-pair/src/contract.rs:provide_liquidity", "contracts/halo-pair/src/contract.rs:withdraw_liquidity"]}
{"id": "C72", "title": "No group of accounts can gain at the expense of a pool", "statement": "Take any group of accounts, not containing the pair, and any history as in C71 during which no account outside the group loses any of the pair's two assets or LP tokens, and no new units of the two assets are created. Then all the group owns at the end, its share of the reserves through LP tokens included, is worth no more than at the start, valued at the pool's price at the start. In particular it cannot gain on both sides. Neither swaps back and forth, nor deposits, withdrawals, donations, burns, nor calls nested in other contracts allow it.", "quantifier": "all chains, reachable states, histories, pairs and finite groups of accounts", "why_tests_cant": "It excludes every profitable strategy, of any length and by any number of cooperating accounts and contracts.", "anchors": ["contracts/halo-pair/src/contract.rs:swap", "contracts/halo-pair/src/contract.rs:provide_liquidity", "contracts/halo-pair/src/contract.rs:withdraw_liquidity", "contracts/halo-token/src/contract.rs:execute"]}
{"id": "C73", "title": "Exactly which routes are executed and exactly what they do", "statement": "Let a user send a units of a cw20 token to the router with ExecuteSwapOperations over pairs known to the factory (both assets of each hop existing and different). The transaction is executed if and only if: the user has the a > 0 units; the list of operations passes the router's shape check (non-empty, exactly one final asset); the minimum is a 128-bit number and the receiver, if given, a valid address; and, starting from the balances with the a units at the router, every hop in order finds a cw20 offer of which the router holds n > 0 units, a pair that can price n against its current reserves x and y (y below 2^128, no overflow, spread at least zero), and amounts that can be rescaled to the pair's decimals; and, if a minimum is given, the receiver's balance of the final asset grew by at least the minimum between the router's receipt of the tokens and the end (both balances below 2^128). In that case the balances of all accounts in all assets afterwards are exactly those obtained by moving, per hop, all n units from the router to the pair and floor-rounded constant-product output less the 0.3% commission from the pair to the router, in the last hop to the receiver.", "quantifier": "for every reachable chain state, router, factory, sender, token, amount, list of operations, minimum, receiver, and every final ledger", "why_tests_cant": "An if-and-only-if over all states, route lengths and amounts, including routes that revisit a pair or an asset and receivers that are pairs or the router itself; a test fixes one route and one set of reserves and cannot show that there is no further reason for failure or further effect.", "anchors": ["contracts/halo-router/src/contract.rs", "contracts/halo-router/src/operations.rs", "contracts/halo-pair/src/contract.rs"]}
{"id": "C74", "title": "A belief price with a maximum spread protects a swap against trades executed before it; a maximum spread alone does not", "statement": "A user signs a swap of n units of a cw20 token with belief price b and maximum spread m. Whatever transactions anybody gets executed before it, if the swap is executed then the receiver gets at least the fraction 1 - m (up to 10^-18) of the n units' worth at price b, in amounts rescaled to the larger number of decimals. With a maximum spread but no belief price there is no such protection: there is a reachable state in which a swap with a maximum spread of 10% pays 2719091 units if executed at once, but 714279 units if another user's swap is executed before it, and that other user makes a profit by swapping back afterwards.", "quantifier": "all chains, reachable states, histories in between, pairs, amounts, belief prices, spreads and receivers", "why_tests_cant": "The protection must hold for every interleaving of other transactions, of any number and by any accounts, between signing and execution; a test fixes one interleaving.", "anchors": ["contracts/halo-pair/src/contract.rs:assert_max_spread", "contracts/halo-pair/src/contract.rs:swap"]}
{"id": "C75", "title": "What a router holds is paid out only by its own hops, and to whoever routes next", "statement": "Over every history, a router's balance of an asset falls only if the router itself executes an ExecuteSwapOperation that offers this asset; no other message of anybody takes anything from it, it never gives allowances, and the factory it was instantiated with never changes. What is left at a router is nevertheless not safe: an account that sends any positive amount a of a token to the router with a one-hop route over a pair the factory knows is paid for a plus everything the router held of that token, and leaves the router with none of it.", "quantifier": "for all chains, reachable states, histories, routers, assets; for all senders, amounts, known pairs and reserves for which the pair can price the trade", "why_tests_cant": "The first half is about every message of every account and contract in unboundedly long histories, including third-party contracts that call the router or its tokens in any order. The second half holds for every amount left and every pool state; the tests only run routes on routers that hold nothing.", "anchors": ["contracts/halo-router/src/operations.rs:16-66", "contracts/halo-router/src/operations.rs:68-102", "contracts/halo-router/src/contract.rs:126-182", "contracts/halo-router/src/contract.rs:47-88"]}
{"id": "C76", "title": "Routes called directly sell what the router holds, and native coins never leave a router", "statement": "ExecuteSwapOperations called directly on the router, with any coins attached, is executed with given balances afterwards exactly if the sender has the coins, the route is valid, the receiver is an address, the hops over known pairs lead from the balances with the coins at the router to those balances, and the receiver ends up with the minimum it asked for. The sender need not pay anything: the first hop sells whatever the router holds of its offer token. Native coins that reach a router are lost: over every history a router's balance of a native coin falls only if a contract from outside this code base accepts a Swap call from the router; pairs, factories, routers and tokens never do.", "quantifier": "for all chains, reachable states, routers, senders, attached coins, routes over known pairs, minimums and receivers; for all histories, including third-party contracts", "why_tests_cant": "The exact condition quantifies over all routes, pool states and balances in both directions. That coins never come back is a statement about all future messages of all accounts and contracts.", "anchors": ["contracts/halo-router/src/contract.rs:47-88", "contracts/halo-router/src/contract.rs:126-182", "contracts/halo-router/src/operations.rs:16-66", "contracts/halo-router/src/operations.rs:68-102", "contracts/halo-pair/src/contract.rs:83-124"]}
{"id": "C77", "title": "Who creates a pair decides forever who may start it, so anybody can block two assets for good", "statement": "After an account has created a pair of two assets, the factory answers with that pair for both orders of the assets in every later state, every further CreatePair for them fails whoever sends it, and LP tokens of the pair exist only if an account on the whitelist given by the creator has made the first deposit with at least the given minimums. CreatePair needs no permission. So every account can, for any two assets that have known decimals and no pair yet, create the pair with an empty whitelist: from then on no pair of these assets ever has LP tokens and no other pair of them can be created.", "quantifier": "for all chains, reachable states, honest factories, creators, assets, requirements and all histories afterwards", "why_tests_cant": "The claim is about all later histories of all accounts and contracts: no sequence of messages, including the owner's, removes or replaces the entry or admits other depositors. A test can only try some of them.", "anchors": ["contracts/halo-factory/src/contract.rs:105-190", "contracts/halo-pair/src/contract.rs:270-300", "packages/haloswap/src/asset.rs:90-100"]}
{"id": "C78", "title": "Every commission goes to the liquidity providers and compounds", "statement": "Take a pair of two different assets, each native or a halo-token contract. Over every history of the chain, with any deposits, withdrawals, donations and swaps by anybody in any order, in which LP tokens exist throughout, the value of one share (reserve0 * reserve1 / supply^2) grows at least by the product, over all swaps on the pair, of (y - r) * 10^18 / ((y - r - c) * 10^18 + 1), where y is the reserve of the asset asked for when the swap runs and r and c are the return_amount and commission_amount the pair reports. The log determines these factors. In a single swap with commission c the product of the reserves grows by at least c times the new reserve of the offered asset, less (reserve - 1) / 10^18, and it grows strictly as soon as c is at least 1.", "quantifier": "for all chains, reachable states, pairs and all histories of any length", "why_tests_cant": "Whether a commission leaks (to traders, through rounding, through later deposits or withdrawals by others) shows only in the sum over arbitrarily long interleavings; a test fixes one interleaving and small numbers.", "anchors": ["contracts/halo-pair/src/contract.rs:208-390", "contracts/halo-pair/src/contract.rs:392-480", "contracts/halo-pair/src/contract.rs:595-640"]}
{"id": "C79", "title": "Every pair an honest factory lists is sound", "statement": "Take a factory instantiated with the pair and token code of the repository whose owner never switches it to other code. Every pair it lists (Pair or Pairs query) has an LP token that is not the pair and that only the pair can mint; none of its assets is its own LP token or the pair itself; the pair and its LP token did not exist when the CreatePair call that made it ran, while every token asset was already a contract then; its two assets are the same only if that call gave two different spellings of one token address. Two listed pairs with the same contract or the same LP token are the same pair. Hence for every listed pair of two different assets, each native or a halo-token, the guarantees of C45 (value of a share never falls in ordinary swaps), C65 (without swaps neither side's backing falls) and C78 (every commission goes to the LPs) hold over every further history in which LP tokens exist.", "quantifier": "for all chains, factories, histories of any length before and after the listing, and listed pairs", "why_tests_cant": "That no way of calling CreatePair, with any tokens, third-party contracts and interleavings, makes a listed pair whose assets overlap with its LP token or itself is a statement about all histories; tests create a few well-behaved pairs.", "anchors": ["contracts/halo-factory/src/contract.rs:105-174", "contracts/halo-factory/src/contract.rs:233-262", "contracts/halo-pair/src/contract.rs:36-92", "contracts/halo-pair/src/contract.rs:178-206"]}
{"id": "C80", "title": "A pair refines an abstract constant-product pool", "statement": "Consider the abstract pool (x0, x1, S): a swap of n units pays gross - fee and keeps the fee, a deposit of d0, d1 mints floor(sqrt(d0 d1)) (first deposit: only by a whitelisted sender and above the minimums) or the smaller of the two shares, a withdrawal of n pays the two floored shares and destroys n LP tokens; besides, anybody may give the pool something or destroy LP tokens of their own. Over every history of the chain, the reserves and LP supply of a pair of two different assets (each native or a halo-token) move exactly as a run of this abstract pool, in which the swaps, deposits and withdrawals are those the pair itself reports in its events, in the same order and with the same numbers. Hence an indexer can rely on the events: the pair holds at least the reported inflows less the reported outflows on each side, and at most as many LP tokens exist as were reported minted less those reported withdrawn.", "quantifier": "for all chains, reachable states, pairs and all histories of any length, including other contracts calling the pair in the middle of their own execution", "why_tests_cant": "Tests compare single operations with expected numbers; that no sequence of calls, by any contracts, changes the pool in a way not covered by the abstract operations and their events is a statement about all executions.", "anchors": ["contracts/halo-pair/src/contract.rs:83-206", "contracts/halo-pair/src/contract.rs:208-340", "contracts/halo-pair/src/contract.rs:342-390", "contracts/halo-pair/src/contract.rs:392-478", "contracts/halo-pair/src/contract.rs:595-640"]}
{"id": "C81", "title": "Every transaction among halotrade contracts ends, after a bounded number of calls", "statement": "On a chain whose contracts all run the code of /repo, every message (to any contract, from anybody, with any payload, in any state) has exactly one outcome: it is executed or refused for a reason of its own, and never goes on without end. An executed message that asks for a route of n hops makes at most 4n + 5 contract calls in all (5 if it asks for no route), and the chain stays of that sort. With third-party code this is false: a contract that calls itself never ends.", "quantifier": "for all chains on which only code of /repo is stored, all states, senders and messages, and all amounts of fuel", "why_tests_cant": "That no combination of contracts, hooks and routes calls each other in a circle is a statement about all messages and states.", "anchors": ["contracts/halo-router/src/contract.rs:126-182", "contracts/halo-router/src/operations.rs:16-102", "contracts/halo-pair/src/contract.rs:83-206", "contracts/halo-factory/src/contract.rs:105-174"]}
{"id": "C82", "title": "A pair treats everybody alike and looks at nothing but itself", "statement": "What a pair does depends only on the message, its settings, its two reserves and the number of its LP tokens. If two states of the chain agree on these, the pair answers every message (from any sender, with any coins) with the same messages and events or the same error, and its Pool, Simulation and ReverseSimulation queries give the same answers, however much the states differ elsewhere (other pairs, the factory and its owner, other balances, who holds LP tokens, allowances). In particular no user is privileged: two users who each own the amount get the same from a swap with the same limits (even on two different pairs with equal reserves and decimals), the same refunds for the same LP tokens, and, once LP tokens exist, the same LP tokens for the same deposit; and one is served if and only if the other is.", "quantifier": "for all chains, all pairs of reachable states that agree on the pair, all senders, coins and messages; for all users, amounts and limits", "why_tests_cant": "This relates two executions in two different states of the chain that may differ in unboundedly many ways; a test compares a few chosen states.", "anchors": ["contracts/halo-pair/src/contract.rs:126-190", "contracts/halo-pair/src/contract.rs:208-340", "contracts/halo-pair/src/contract.rs:342-388", "contracts/halo-pair/src/contract.rs:392-477", "contracts/halo-pair/src/contract.rs:500-583"]}
{"id": "C83", "title": "Trades of different users on different pairs do not influence each other, in whatever order a block holds them", "statement": "Take any number of cw20 swaps of different ordinary users on different pairs (the pairs may share tokens). They are all executed, one after another, exactly when each of them would be executed alone; each exchanges exactly what it would exchange alone; and every other order is executed as well and leaves everybody with the same amount of every asset. On one and the same pair the order does matter (a concrete case is proved).", "quantifier": "for all chains and reachable states, all lists of trades with distinct users and distinct pairs, all amounts and limits, and all permutations", "why_tests_cant": "Independence of the order is a statement about all permutations of arbitrarily many trades in all states.", "anchors": ["contracts/halo-pair/src/contract.rs:126-190", "contracts/halo-pair/src/contract.rs:392-477", "contracts/halo-token/src/contract.rs:1-76"]}
{"id": "C84", "title": "A token's queries tell what the token acts by, and listing the accounts page by page finds every holder", "statement": "In every reachable state, a client that pages through AllAccounts with any non-zero limits, each time after the last account it has seen, sees the accounts in order and each only once, skips no holder, knows it is done when a page is empty, and finds Balance answers that add up to the total supply TokenInfo reports. The same holds for AllAllowances, whose entries are the answers of Allowance. A spender can move exactly the amounts up to the Allowance answer and the owner's Balance answer until the answered expiration has passed, and exactly the account answered by Minter can mint, up to the answered cap. A page never has more than 30 entries.", "quantifier": "for all chains and reachable states, all tokens, owners, spenders and amounts, and all sequences of page limits", "why_tests_cant": "Completeness of paging concerns all sets of account names and all sequences of limits; agreement of answers and actions concerns all states a token can get into.", "anchors": ["contracts/halo-token/src/contract.rs:18-76"]}
{"id": "C85", "title": "A token is exactly an account book of its logged calls", "statement": "Consider an abstract account book: balances, the total, allowances with expirations, and the minter with its cap; a simple rule says for each call whether it is in order and which entry it makes. Over every history of the chain, what a token stores and what its Balance, TokenInfo, Allowance and Minter queries answer is exactly the book that results from entering the logged calls to that token, in order, into the book it started with (for a token created meanwhile, the book its instantiation message asks for), and every logged call was in order when it was made. Conversely, in every reachable state every call that is in order is executed and makes exactly that entry.", "quantifier": "all chains with arbitrary other contracts, all reachable states, all histories, all tokens of this code base, all accounts and calls", "why_tests_cant": "That the whole state of a token is a function of its call log and of nothing else, in every history with re-entrant calls by arbitrary contracts, quantifies over all executions; tests compare a few balances after a few calls.", "anchors": ["contracts/halo-token/src/contract.rs:18-76"]}
{"id": "C86", "title": "Splitting deposits or withdrawals into parts does not pay", "statement": "Redeeming LP tokens of a pair in any number of withdrawals one after another, by anybody, pays out of each reserve in total at most the exact pro-rata share (reserve times redeemed tokens over supply, all before the first part) and less than that by at most one unit, and one per 10^18 units of the reserve, for each part; so compared with one withdrawal of the whole amount from the same state the parts gain at most one unit (and one per 10^18 units of the reserve) and lose at most that much per part. Likewise however many deposits in a row bring a pair from one state of its reserves to another: one deposit that brings it there at once mints at least as many LP tokens as all of them together; this includes the first deposit into an empty pool.", "quantifier": "all reachable states of all chains, all pairs of two different assets (native or tokens of this code base), all lists of amounts and all signers", "why_tests_cant": "The bound is over all ways of cutting an amount into parts and all reserves, and rests on how the rounding errors of successive withdrawals and deposits add up; tests try single amounts.", "anchors": ["contracts/halo-pair/src/contract.rs:208-340", "contracts/halo-pair/src/contract.rs:342-390"]}
{"id": "C87", "title": "Messages mean the same as bytes", "statement": "Contracts exchange messages as bytes: JSON text, with the message that accompanies a token transfer in base64 inside it. Whatever bytes a pair, router, factory or token is called with, it either refuses them or treats them exactly as one message; and the bytes that stand for a message are read back as that message by each contract that takes messages of this kind and refused by the others: no amount, price, address, optional value or accompanying message is altered, exactly the numbers that fit their types are accepted, unknown, repeated or missing fields and foreign tags are refused. The messages these contracts send each other, and those they instantiate each other with, are of this kind too.", "quantifier": "all byte strings, all messages of all four contracts with all field values (addresses and denominations may contain any characters), all contract states and environments", "why_tests_cant": "The claim is over all texts and all values, including ones containing quotation marks, control characters or numbers at the limits, and over all bytes that are not messages; the unit tests pass typed messages to the contract functions and never go through bytes except for a few hook payloads.", "anchors": ["packages/haloswap/src/pair.rs:8-48", "packages/haloswap/src/router.rs:7-61", "packages/haloswap/src/factory.rs:5-35", "packages/haloswap/src/asset.rs:11-105", "packages/haloswap/src/token.rs:7-14", "contracts/halo-pair/src/contract.rs:134", "contracts/halo-router/src/contract.rs:107"]}
{"id": "C88", "title": "Questions and answers mean the same as bytes", "statement": "Contracts and users ask contracts by sending the JSON text of a question and reading the JSON text of the answer. Asking a pair, factory, router or token this way tells exactly what the contract's query function answers for the current state: the question is understood as asked, by the contract it is meant for only, if and only if its numbers fit their types; every answer any reachable state can give fits its types and is read back unchanged. So the pool balances, supplies, decimals, pair records and simulations a contract bases its decisions on are those of the asked contract. Whatever other bytes are answered at all stand for such a question.", "quantifier": "all questions to all four contracts with all argument values, all byte strings, all reachable states of the chain (any history of transactions by any accounts and third-party contracts)", "why_tests_cant": "That answers always fit is an invariant of every number in the storage of all contracts over unbounded histories (recorded decimals, allowances, expirations, minima, code ids, simulated amounts along routes of any length); the unit tests mock the querier with fixed answers.", "anchors": ["packages/haloswap/src/querier.rs:34-124", "packages/haloswap/src/pair.rs:50-84", "packages/haloswap/src/factory.rs:37-74", "packages/haloswap/src/router.rs:63-90", "contracts/halo-pair/src/contract.rs:480-491", "contracts/halo-factory/src/contract.rs:265-276", "contracts/halo-router/src/contract.rs:205-228", "contracts/halo-token/src/contract.rs:73-76"]}
{"id": "C89", "title": "What a new contract is", "statement": "Anyone may instantiate each of the four contracts. It works if and only if the named administrator is an address, the attached coins can be paid and: for a factory, the code ids fit; for a router, the given factory is an address; for a token, the message is valid (C37); for a pair, both assets are spelled by addresses or denominations and the numbers fit (the two assets may even be the same: that is checked by factories only). From then on the new contract answers its queries with exactly what it was told: a factory with its creator as owner, the two code ids in their places, no pairs and no coins; a router with its factory; a token with the given name, symbol, decimals, minter, cap, balances, their sum as supply, and no allowances; a pair with its assets, decimals and requirements, and with a new LP token that has no supply, no administrator and the pair as its only minter. Nothing else on the chain changes except the attached coins.", "quantifier": "all reachable states, all ordinary accounts, administrators, code ids, messages, funds and labels", "why_tests_cant": "The unit tests instantiate each contract once with one message against mocked dependencies; the claim is an equivalence over all messages and chain states, and spans the pair's submessage to its LP token and the reply.", "anchors": ["contracts/halo-factory/src/contract.rs:instantiate", "contracts/halo-router/src/contract.rs:instantiate", "contracts/halo-token/src/contract.rs:instantiate", "contracts/halo-pair/src/contract.rs:instantiate", "contracts/halo-pair/src/contract.rs:reply"]}
{"id": "C90", "title": "Decimal256 and Uint256 in JSON", "statement": "Every Decimal256 and every Uint256 is written to JSON as its printed text in quotation marks, and reading that gives back the same number. A JSON text is read as a Decimal256 exactly if it is a string whose content is a decimal text (digits, optionally a dot and at most 18 digits) with a value below 2^256/10^18, and as a Uint256 exactly if it is a string of digits with a value below 2^256. All other texts are refused with an error, except one kind: a decimal whose value is too large, but whose whole part alone is below 2^256, makes Decimal256 abort instead of answering an error.", "quantifier": "all 256-bit numbers and all byte strings", "why_tests_cant": "The unit tests serialize six decimals and deserialize eight texts; the claim is an equivalence over all byte strings, including escapes and white space, and says exactly which texts abort.", "anchors": ["packages/bignumber/src/math.rs:Decimal256::serialize", "packages/bignumber/src/math.rs:Decimal256Visitor::visit_str", "packages/bignumber/src/math.rs:Uint256::serialize", "packages/bignumber/src/math.rs:Uint256Visitor::visit_str"]}
{"id": "C91", "title": "Following a token's events is knowing its balances, supply, allowances and minter", "statement": "Take someone (an indexer, a wallet) who knows the balances, the supply, the allowance amounts and the minter of a token at some moment, or the message that instantiated it, and from then on reads nothing but the attributes of the token's events: the amount leaves the account named under from and arrives at the one under to, changes the supply if only one of the two is named, raises or lowers the allowance of owner for spender, is taken from the allowance of from for by, and new_minter replaces the minter. After any history this person's record agrees with the token in every balance, the supply, every allowance amount and the minter.", "quantifier": "for all chains, all reachable states, all histories (any number of transactions, nested calls, third-party contracts) and all tokens", "why_tests_cant": "The claim is an invariant over all executions and compares the reported texts with the stored numbers for every account and every pair of accounts; a test checks single events.", "anchors": ["contracts/halo-token/src/contract.rs:execute", "contracts/halo-token/src/contract.rs:instantiate", "packages/haloswap/src/token.rs:InstantiateMsg"]}
{"id": "C92", "title": "What the factory and a new pair report can be read back by asking", "statement": "When a pair is created, the factory reports the two assets as given, and on the reply of the new pair it reports the pair's address and the address of its LP token; asking the factory for the pair afterwards, in either order of the assets, answers exactly these addresses, the two assets and the requirements the pair itself tells. The LP token address a pair reports is the one it answers in its Pair query. The decimals the factory reports for a native coin are the ones it answers for it, and its answers for all other coins do not change.", "quantifier": "for all factory and pair states, all assets and addresses in their usual spelling, all requirements and all answers of other contracts", "why_tests_cant": "The unit tests compare the reports and the stored pair for one pair of assets; that report and later answers agree in general is a relation between two calls and a query over all states.", "anchors": ["contracts/halo-factory/src/contract.rs:execute_create_pair", "contracts/halo-factory/src/contract.rs:reply", "contracts/halo-factory/src/contract.rs:execute_add_native_token_decimals", "contracts/halo-factory/src/contract.rs:query_pair", "contracts/halo-pair/src/contract.rs:reply"]}
{"id": "C93", "title": "Swaps move the price against followers and in favour of the other side", "statement": "What a pair quotes depends on its reserves alone: holding no less of the offered and no more of the asked asset, it quotes no more. After any number of swaps of one token at a pair, by anyone and with any limits, the same offer of that token is quoted, and brings when executed, no more than before them, and an offer of the other asset is quoted, and brings, no less.", "quantifier": "for all reachable states, all pairs of two different assets, all sequences of swaps in one direction by any signers, and all amounts, limits and receivers of the compared offers", "why_tests_cant": "The unit tests run single swaps with fixed reserves; the claim compares two states of the same pair separated by any number of swaps, for every amount, and rounding in the price computation could break it at single amounts.", "anchors": ["contracts/halo-pair/src/contract.rs:swap", "contracts/halo-pair/src/contract.rs:query_simulation", "contracts/halo-pair/src/contract.rs:compute_swap"]}
{"id": "C94", "title": "Liquidity makes quotes better, in the direction in which it was added in proportion", "statement": "A pair holding more of both assets, and at least in proportion more of the asked asset, quotes no offer worse, before and after the commission. So after a deposit every offer in the direction towards the asset deposited in greater proportion is quoted no worse, and a proportionate deposit makes no quote worse in either direction; a withdrawal makes no quote better in the direction towards the asset paid out in greater proportion, so never improves both directions.", "quantifier": "for all reachable states, all pairs of two different assets that are not the pair's LP token, all deposits with any coins attached and any limits, all withdrawals, and all quoted amounts", "why_tests_cant": "The unit tests query simulations on fixed mocked reserves and never compare quotes across a deposit or withdrawal; the claim is an inequality for all amounts and states whose rounding a sample of amounts cannot settle.", "anchors": ["contracts/halo-pair/src/contract.rs:provide_liquidity", "contracts/halo-pair/src/contract.rs:withdraw_liquidity", "contracts/halo-pair/src/contract.rs:query_simulation", "contracts/halo-pair/src/contract.rs:compute_swap"]}
{"id": "C95", "title": "There are never more shares than the geometric mean of the reserves", "statement": "From a moment at which a pair has no LP shares, such as its creation, the square of the LP supply never exceeds the product of the two reserves, whatever anybody does afterwards with any of the contracts and through any withdrawal of all shares and first deposit in between, as long as every swap on the pair either leaves at most 10^18 units of the offered token in the pool or pays a commission; so while a share is out both reserves are positive. More generally the bound, once it holds, keeps holding. Without the proviso on swaps it fails: 5*10^18 units of each token and a swap of 2 units.", "quantifier": "for all reachable states in which the bound holds, all pairs of two different assets (native or halo-token) that are not the pair's LP token, and all histories of transactions by ordinary signers (including calls nested through contracts) in which every swap on the pair is ordinary in the sense above", "why_tests_cant": "It is an invariant over unbounded sequences of deposits, swaps, withdrawals, donations, burns and migrations through several contracts; the unit tests call each handler once on a mocked querier and never look at supply and reserves together.", "anchors": ["contracts/halo-pair/src/contract.rs:provide_liquidity", "contracts/halo-pair/src/contract.rs:withdraw_liquidity", "contracts/halo-pair/src/contract.rs:swap", "contracts/halo-pair/src/contract.rs:compute_swap"]}
{"id": "C96", "title": "A round trip costs the two commissions and rounding, no more and no less", "statement": "If somebody swaps n units of a token at a pair for r units of the other token, and these r units are swapped back while the pair holds what it held after the first swap, then what is paid back is 0.997 * 0.997 * n, give or take one unit and the worth of one unit of the other token at the pair's rate after the first swap (its reserve of the offered token divided by its earlier reserve of the other). The pair takes nothing beyond the two commissions, and nobody escapes them.", "quantifier": "for all reachable states, all pairs of two halo-tokens, all amounts, signers, receivers other than the pair, limits, and everything that happens in between as long as the pair's two reserves are the same", "why_tests_cant": "The unit tests run single swaps on mocked reserves; the claim is a two-sided bound with accumulated rounding of two swaps at different reserves, for all reserves and amounts.", "anchors": ["contracts/halo-pair/src/contract.rs:swap", "contracts/halo-pair/src/contract.rs:compute_swap"]}
{"id": "C97", "title": "A pair and the factory learn the true address of what they created", "statement": "After an instantiation the chain tells the contract the new address in a protobuf message. From the bytes of every such message (the address in field 1, optionally data in field 2), the pair stores exactly this address as its LP token and the factory registers exactly this address as the pair, and both report it in the event; nothing else of their state changes. Exactly which other bytes are accepted is stated too (only the tolerated deviations: key 8k+6, lengths modulo 2^32, no bytes at all, bytes after the second field); every other reply, a failed submessage and one without data abort the transaction.", "quantifier": "for all addresses (any UTF-8 text shorter than 2^32 bytes), all data, all encodings of the lengths, all byte strings, all states of pair and factory and all chains", "why_tests_cant": "The unit tests feed one or two hand-written replies; the claim is about a decoder on all byte strings, for every length, including lengths of several bytes and malformed input.", "anchors": ["contracts/halo-pair/src/contract.rs:reply", "contracts/halo-factory/src/contract.rs:reply"]}
{"id": "C98", "title": "What a spender has been allowed is listed completely and correctly", "statement": "A token keeps every allowance twice, by owner and by spender. In every history the two maps agree: the second never makes a call fail or changes its effect. Therefore a client that pages through AllSpenderAllowances, with any limits but zero and enough requests, is shown every owner who allowed the spender something exactly once, in order, with exactly the amount and expiration that Allowance answers for that owner and spender.", "quantifier": "for all chains, all histories from an empty chain (with arbitrary other contracts), all tokens, spenders, page sizes and numbers of pages", "why_tests_cant": "The unit tests of halo-token have no allowance histories; that two maps updated separately by increase, decrease and three kinds of spending never drift apart is an invariant over all histories.", "anchors": ["contracts/halo-token/src/contract.rs:execute", "contracts/halo-token/src/contract.rs:query"]}
{"id": "C99", "title": "No cycle of swaps gains unless the pools' prices disagree by more than the commissions", "statement": "SimulateSwapOperations never answers more than the offer times the product, over the hops, of the pool's price (asked reserve over offered reserve) less 0.3 percent, plus one unit of rounding per hop valued at the later hops' prices. So when an account sends a token round a route that ends in the same token, over different pairs and through a router holding none of the assets, and the prices along the route less 0.3 percent each multiply to at most one, the account has afterwards at most that rounding more of the token than before, and unchanged amounts of everything else. When the prices disagree by more, a cycle can gain.", "quantifier": "for all reachable states, all routes of tradable pairs of any length, all pool reserves and all offered amounts", "why_tests_cant": "A test runs one cycle with one set of reserves; the bound is over all reserves, route lengths and amounts, where truncations of every hop are multiplied by the prices of the later ones.", "anchors": ["contracts/halo-router/src/contract.rs:simulate_swap_operations", "contracts/halo-router/src/contract.rs:execute_swap_operations", "contracts/halo-router/src/operations.rs:execute_swap_operation", "contracts/halo-pair/src/contract.rs:compute_swap"]}
{"id": "C100", "title": "What the factory, a pair and the router keep in their storage is read back as it was written", "statement": "Every entry of the contracts' key-value storage (version, configuration, pending pair, registered pairs by key, decimals of native coins, a pair's own record) has its own key, whatever the pair keys and denominations are. If the storage holds exactly the JSON of a state, every execute, reply, query and migrate call on the bytes gives the same answer, messages and error as on the typed state and leaves exactly the JSON of the new state; in particular the page of Pairs read by a range over the storage holds the registered pairs above the start key in key order and no entry of another map. New contracts start from an empty storage. Each state has exactly one storage and different states have different ones.", "quantifier": "for all contract states within the number ranges of their types (all that are reachable), all messages, queries, replies, callers, pair keys and denominations of any bytes and length", "why_tests_cant": "Unit tests save and load a few short keys; that no denomination or pair key ever collides with another entry or escapes the range bounds, and that every stored value reads back, is about all byte strings.", "anchors": ["contracts/halo-factory/src/state.rs:1-80", "contracts/halo-pair/src/state.rs:1-4", "contracts/halo-router/src/state.rs:1-11", "contracts/halo-factory/src/contract.rs:execute_create_pair", "contracts/halo-factory/src/contract.rs:reply", "contracts/halo-factory/src/contract.rs:query", "packages/haloswap/src/asset.rs:PairInfoRaw"]}
{"id": "C101", "title": "What a token keeps in its storage is read back as it was written", "statement": "Every balance, every allowance by owner and spender, every allowance by spender and owner, the token's data and its version have their own storage key, so no choice of names makes one account's entry another's. If the storage holds exactly the JSON of a token's state (with both allowance maps), every execute call and every query on the bytes gives the same answer, messages and error as on the typed state and leaves exactly the JSON of the new state; the pages of AllAccounts, AllAllowances and AllSpenderAllowances read by ranges over the storage are those of the state, with no entry of another owner or another map. A new token starts from an empty storage, and in every history from an empty chain running the token's calls on its bytes ends in the storage of its state. Each state has exactly one storage and different states have different ones.", "quantifier": "for all token states within the number ranges of their types, all messages, queries, blocks, callers and histories; addresses used in allowances are shorter than 65536 bytes and hold no byte 255 (true of every UTF-8 address)", "why_tests_cant": "Unit tests use a handful of short names; that the composite key of (owner, spender) is never confused with another pair's, that a range never reaches a neighbouring owner and that both maps stay equal in bytes is about all byte strings and all histories.", "anchors": ["contracts/halo-token/src/contract.rs:instantiate", "contracts/halo-token/src/contract.rs:execute", "contracts/halo-token/src/contract.rs:query"]}
{"id": "C102", "title": "The whole chain run on bytes of storage is the chain of the model", "statement": "Consider the chain on which every contract of the repository exists only as the bytes of its key-value storage: each call, reply, migration, instantiation and query reads that store and writes to it, third-party contracts see everybody's bytes, and messages are dispatched with replies, failures and rollbacks as usual. If the stores belong to the states of the model, every message has the same outcome as in the model: the same error, or the same bank balances, contracts, admins, events and answers, with stores that again belong to the new states. Hence every history on bytes from an empty chain is a history of the model, and whatever is proved of all reachable states holds of what the bytes stand for; for instance the balances written in a token's storage always add up to the supply written there. On chains whose addresses are all shorter than 65536 bytes and free of byte 255, the two chains make exactly the same steps.", "quantifier": "for all chains with any third-party code, all stores and states that belong together, all messages, senders, depths of dispatch and histories; runs in which a token is called by or about a valid address of 65536 bytes or more, or with a byte 255, are excluded", "why_tests_cant": "Integration tests compare a few transactions; that no interleaving of nested calls, replies, caught failures and hostile contracts makes the stored bytes differ from the abstract state needs induction over all executions.", "anchors": ["contracts/halo-factory/src/contract.rs:execute", "contracts/halo-factory/src/contract.rs:reply", "contracts/halo-factory/src/state.rs:1-80", "contracts/halo-pair/src/contract.rs:execute", "contracts/halo-pair/src/contract.rs:reply", "contracts/halo-pair/src/state.rs:1-4", "contracts/halo-router/src/contract.rs:execute", "contracts/halo-router/src/state.rs:1-11", "contracts/halo-token/src/contract.rs:execute"]}
{"id": "C103", "title": "The parts of a quote add up, and a maximum spread limits a swap's share of the pool", "statement": "Return, spread and commission of a Simulation add up to the offered amount times the pool's price (asked reserve over offered reserve, kept to 18 decimals), rounded down. The spread is the price impact: the fraction n/(x+n) of that worth, for n offered to a reserve of x, up to one unit and the price's 18 decimals. So a swap sent with a maximum spread and no belief price is executed only if n/(x+n) is at most the maximum spread, but for one unit of 18 decimals and that rounding; and it is executed, if it would be without a limit, as soon as n/(x+n) is below 99.7 percent of the maximum spread by the rounding. A maximum spread is thus a limit on the swap's size against the pool, whatever the price.", "quantifier": "for all reachable states, all pairs and reserves, all offered amounts, senders, receivers and maximum spreads", "why_tests_cant": "A test checks a few amounts against a few pools; the bounds hold for all reserves and amounts, where three truncating divisions interact.", "anchors": ["contracts/halo-pair/src/contract.rs:compute_swap", "contracts/halo-pair/src/contract.rs:query_simulation", "contracts/halo-pair/src/contract.rs:swap", "contracts/halo-pair/src/contract.rs:assert_max_spread"]}
{"id": "C104", "title": "A token answers every question from bytes to bytes", "statement": "A token that is asked with the bytes of a QueryMsg, reads the bytes of its storage and writes the bytes of its answer gives exactly the answer of its state, for every question it knows, and refuses what is none. This includes AllSpenderAllowances, which is answered from the second allowance map: the asker reads back exactly the owners, amounts and expirations that were meant, and a spender who pages through them in bytes, with any limits but zero and enough requests, is shown every owner who allows something, once and in order, with what Allowance answers.", "quantifier": "for all token states and stores that belong together, all questions, addresses shorter than 65536 bytes, all pages and limits; the listing for all reachable states", "why_tests_cant": "Tests compare a few answers as typed values; that no state, name or paging makes the bytes of question, storage and answer disagree is a statement over all of them.", "anchors": ["contracts/halo-token/src/contract.rs:query"]}
{"id": "C105", "title": "Whoever asks the chain in bytes is told what the contracts' states say", "statement": "On the chain whose contracts exist only as stored bytes, a smart query is bytes in and bytes out: the addressed contract reads the question, reads its storage (and asks other contracts, which read theirs) and writes the answer. For every sequence of bytes sent to a factory, pair, router or token, the answer is byte for byte that of the model, or refused as in the model. Hence after any history from an empty chain, a user who asks one of the contracts' questions and reads the answer by its type learns exactly what the contract's state, as reached by the same history in the model, gives as the answer.", "quantifier": "for all chains with any third-party code, all histories, all addresses, all questions and all byte sequences; questions about allowances of addresses with 65536 bytes or more, or with a byte 255, are excluded; AllSpenderAllowances is C104", "why_tests_cant": "A test asks a few questions in a few states; that no history, nesting of queries or choice of bytes makes the answer differ from the state needs a proof over all of them.", "anchors": ["contracts/halo-factory/src/contract.rs:query", "contracts/halo-pair/src/contract.rs:query", "contracts/halo-router/src/contract.rs:query", "contracts/halo-token/src/contract.rs:query"]}
{"id": "C106", "title": "A transaction sent as bytes does what its message says, and unreadable bytes do nothing", "statement": "On the chain whose contracts exist only as stored bytes, a user sends arbitrary bytes to a factory, pair, router or token. The contract reads them with its own decoder and runs on its storage. For every sequence of bytes, the outcome of the whole transaction (balances, every contract's storage, the log, or the error) is that of the model for the message the bytes stand for. Bytes the addressed contract cannot read make the transaction fail. Every message a contract of the repository sends in return can itself be written as bytes and is read back by the contracts of the repository with the effect the model gives it.", "quantifier": "for all chains with any third-party code, all states, all senders, all byte sequences and all attached coins; calls of a token by or about an address with 65536 bytes or more, or with a byte 255, are excluded", "why_tests_cant": "Tests pass typed messages to the functions; that no byte sequence, however written, reaches the storage with another effect than its message has needs a proof over all of them.", "anchors": ["contracts/halo-factory/src/contract.rs:execute", "contracts/halo-pair/src/contract.rs:execute", "contracts/halo-router/src/contract.rs:execute", "contracts/halo-token/src/contract.rs:execute"]}
{"id": "C107", "title": "With all messages and all storage in bytes, the system behaves as the model", "statement": "On a chain where every contract of the repository exists only as stored bytes and every message to one of them, from users or from contracts, is sent as the bytes of its JSON and read by the receiver's own decoder, every transaction ends exactly as in the model: same balances, same contents of every storage, same log, same error. So every history of that chain from an empty state is one of the model, and whatever is proved for all reachable states of the model holds there. Any bytes a user sends are covered.", "quantifier": "for all chains, all histories, all senders, all messages; third-party code is arbitrary except that the messages it sends must be given as what their bytes mean; calls of a token by or about an address with 65536 bytes or more, or with a byte 255, are excluded", "why_tests_cant": "Multi-test runs follow a few call trees; that no chain of encodings and decodings across nested calls, replies and instantiations ever loses or changes anything needs an induction over all executions.", "anchors": ["packages/haloswap/src/asset.rs:into_msg", "contracts/halo-factory/src/contract.rs:execute", "contracts/halo-factory/src/contract.rs:reply", "contracts/halo-pair/src/contract.rs:execute", "contracts/halo-pair/src/contract.rs:instantiate", "contracts/halo-router/src/contract.rs:execute", "contracts/halo-token/src/contract.rs:execute"]}
{"id": "C108", "title": "Migrating to the same code changes no byte of storage, and only an empty message is accepted", "statement": "A factory, pair or router migrated to its own code accepts as migrate message exactly the two braces {} with white space anywhere (any field is refused) and then leaves every byte of its storage as it was, sends no messages and emits no attributes. With any other bytes the migration is refused. The bytes the factory sends with MigratePair are accepted by every pair.", "quantifier": "for all byte sequences sent as the message and all states of the three contracts", "why_tests_cant": "Tests migrate one contract with one message; that no other bytes are accepted and that no state loses anything is a statement about all of them.", "anchors": ["contracts/halo-factory/src/contract.rs:migrate", "contracts/halo-factory/src/contract.rs:execute_migrate_pair", "contracts/halo-pair/src/contract.rs:migrate", "contracts/halo-router/src/contract.rs:migrate", "packages/haloswap/src/pair.rs:MigrateMsg"]}
