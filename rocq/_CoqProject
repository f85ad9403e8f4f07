-Q theories Verif
theories/Base.v
theories/BigNumber.v
theories/CwStd.v
theories/Spec.v
theories/BigNumberFacts.v
theories/P_BigNumber.v
theories/Asset.v
theories/Messages.v
theories/PairMath.v
theories/SwapFacts.v
theories/SwapFacts2.v
theories/P_Swap.v
theories/Pair.v
theories/PairFacts.v
theories/Examples.v
theories/P_Pair.v
theories/Token.v
theories/Factory.v
theories/Router.v
theories/FactoryFacts.v
theories/P_Factory.v
theories/P_Router.v
theories/P_Token.v
theories/TokenFacts.v
theories/World.v
theories/WorldInd.v
theories/WorldFacts.v
theories/WorldInv.v
theories/WorldInd2.v
theories/WorldExamples.v
theories/P_Ledger.v
theories/P_Registry.v
theories/ExecFacts.v
theories/P_Exec.v
theories/P_Route.v
theories/P_Value.v
theories/Replay.v
theories/P_TokenHistory.v
theories/P_Migrate.v
theories/P_Deposit.v
theories/P_Route2.v
theories/P_Quotes.v
theories/P_Withdraw.v
theories/P_Create.v
theories/P_Events.v
theories/P_Order.v
theories/P_Cw20.v
theories/P_Admin.v
theories/P_Sides.v
theories/P_Fair.v
theories/P_First.v
theories/P_Stuck.v
theories/P_Split.v
theories/P_Gain.v
theories/P_RouteIff.v
theories/P_Limits.v
theories/P_RouterFunds.v
theories/P_Direct.v
theories/P_Squat.v
theories/P_Fees.v
theories/P_Listed.v
theories/P_Refine.v
theories/P_Finite.v
theories/P_Alike.v
theories/P_Block.v
theories/P_Parts.v
theories/P_Reverse.v
theories/TokenQueries.v
theories/P_TokenQuery.v
theories/P_Text.v
theories/P_Book.v
theories/P_PartsLP.v
theories/Json.v
theories/JsonFacts.v
theories/Wire.v
theories/WireFacts.v
theories/P_Wire.v
theories/P_Decimals.v
theories/QueryWire.v
theories/FitsInv.v
theories/P_QueryWire.v
theories/P_New.v
theories/P_Json.v
theories/P_Schema.v
theories/BigNumberWire.v
theories/P_BigNumberWire.v
theories/P_Pages.v
theories/P_Dispatch.v
theories/P_Indexer.v
theories/P_Reports.v
theories/P_Moves.v
theories/P_Depth.v
theories/P_Geo.v
theories/P_Round.v
theories/ReplyWire.v
theories/P_Reply.v
theories/TokenMirror.v
theories/P_Mirror.v
theories/P_Cycle.v
theories/Storage.v
theories/P_Store.v
theories/TokenStorage.v
theories/P_TokenStore.v
theories/ByteWorld.v
theories/P_ByteWorld.v
theories/P_Impact.v
theories/SpenderWire.v
theories/P_SpenderWire.v
theories/ByteQuery.v
theories/P_ByteQuery.v
theories/ByteEntry.v
theories/P_ByteEntry.v
theories/WireWorld.v
theories/P_WireWorld.v
theories/MigrateWire.v
theories/P_MigrateWire.v
theories/Assumptions.v
