-Q theories Verif
theories/Base.v
theories/Bytes.v
theories/BytesFacts.v
theories/Sha256.v
theories/Ed25519.v
theories/Base58.v
theories/Solana.v
theories/Errors.v
theories/Borsh.v
theories/Math.v
theories/Layout.v
theories/Pda.v
theories/Instr.v
theories/Event.v
theories/SystemProg.v
theories/TokenProg.v
theories/AtaProg.v
theories/Assertions.v
theories/Cpi.v
theories/Program.v
theories/Borrow.v
theories/Runtime.v
theories/Log.v
theories/ClientMath.v
theories/MathFacts.v
theories/Economics.v
theories/PoolMath.v
theories/P_Math.v
theories/LedgerFacts.v
theories/ParseFacts.v
theories/TokenFacts.v
theories/CpiFacts.v
theories/AssertFacts.v
theories/LayoutFacts.v
theories/FieldFacts.v
theories/StakeFacts.v
theories/UnstakeFacts.v
theories/WithdrawFacts.v
theories/SetFacts.v
theories/InitFacts.v
theories/CodecFacts.v
theories/History.v
theories/OutsideFacts.v
theories/Totals.v
theories/TokenStep.v
theories/VaultStep.v
theories/Calm.v
theories/Pool.v
theories/PoolStake.v
theories/PoolUnstake.v
theories/PoolInit.v
theories/PoolHistory.v
theories/Spec.v
theories/HistoryFacts.v
theories/LifeFacts.v
theories/RateFacts.v
theories/EffectFacts.v
theories/ClaimFacts.v
theories/EventFacts.v
theories/SlotFacts.v
theories/ExactFacts.v
theories/ConserveFacts.v
theories/FailFacts.v
theories/Transaction.v
theories/TransactionFacts.v
theories/LiveFacts.v
theories/CommuteFacts.v
theories/RentFacts.v
theories/TradeFacts.v
theories/BlockFacts.v
theories/EmptyFacts.v
theories/GuardSpec.v
theories/GuardFacts.v
theories/FreezeFacts.v
theories/FreezeStep.v
theories/TakeFacts.v
theories/ShownFacts.v
theories/Schema.v
theories/Client.v
theories/Rpc.v
theories/ClientSpec.v
theories/SchemaFacts.v
theories/RaiseFacts.v
theories/EncodeFacts.v
theories/DecodeFacts.v
theories/RoleFacts.v
theories/AddressFacts.v
theories/ScriptFacts.v
theories/RpcFacts.v
theories/ReadFacts.v
theories/Demo.v
theories/RealPda.v
theories/DemoMore.v
theories/DemoStory.v
theories/DemoClient.v
theories/Refuted.v
theories/DemoStale.v
theories/GuardRefuted.v
theories/P_Trade.v
theories/P_Limits.v
theories/P_Codec.v
theories/P_History.v
theories/P_Effects.v
theories/P_Live.v
theories/P_Client.v
theories/P_Guard.v
theories/Builders.v
theories/Scripts.v
theories/ToolSpec.v
theories/BuilderFacts.v
theories/ToolRefuted.v
theories/ScriptRun.v
theories/ScriptMore.v
theories/P_Tools.v
theories/DemoScripts.v
theories/ScriptRefuted.v
theories/P_Scripts.v
theories/ErrorSpec.v
theories/ErrorFacts.v
theories/VerdictFacts.v
theories/FirstFacts.v
theories/P_Errors.v
theories/StatusFacts.v
theories/StatusRefuted.v
theories/P_Status.v
theories/LocalFacts.v
theories/ClockFacts.v
theories/P_Local.v
theories/MistakeSpec.v
theories/MistakeFacts.v
theories/DemoMistake.v
theories/P_Mistakes.v
theories/BorrowFacts.v
theories/DemoBorrow.v
theories/P_Borrow.v
theories/RentSpec.v
theories/LogSpec.v
theories/LogFacts.v
theories/RentCheckFacts.v
theories/DemoRent.v
theories/P_Rent.v
theories/RuntimeFacts.v
theories/DemoRuntime.v
theories/P_Runtime.v
theories/LogTruth.v
theories/LogMain.v
theories/DemoLog.v
theories/P_Log.v
theories/Cli.v
theories/CliSpec.v
theories/ShareSpec.v
theories/ShareFacts.v
theories/DocFacts.v
theories/CliFacts.v
theories/CliKeys.v
theories/CliMain.v
theories/DemoCli.v
theories/P_Cli.v
theories/DemoShare.v
theories/P_Share.v
theories/Wire.v
theories/WireSpec.v
theories/WireKeys.v
theories/WireBytes.v
theories/WireFacts.v
theories/WirePrivileges.v
theories/WireRuntime.v
theories/AcceptSpec.v
theories/AcceptFacts.v
theories/WireScripts.v
theories/DemoWire.v
theories/P_Wire.v
theories/Exec.v
theories/ExecSpec.v
theories/ExecFacts.v
theories/ExecWrites.v
theories/PacketFacts.v
theories/PacketFunds.v
theories/PacketBirth.v
theories/ScriptExec.v
theories/MessageSpec.v
theories/MessageFacts.v
theories/DemoExec.v
theories/Land.v
theories/LandSpec.v
theories/LandFacts.v
theories/LandScripts.v
theories/DemoLand.v
theories/P_Land.v
theories/P_Exec.v
theories/KeyFile.v
theories/KeyFileSpec.v
theories/KeyFileFacts.v
theories/DemoKey.v
theories/P_KeyFile.v
theories/LandLive.v
theories/LandFirst.v
theories/DemoLive.v
theories/LandOpen.v
theories/LandInit.v
theories/LandGive.v
theories/LandSend.v
theories/DemoGive.v
theories/WaitSpec.v
theories/WaitFacts.v
theories/WaitLive.v
theories/DemoShut.v
theories/P_LandLive.v
theories/DemoWait.v
theories/P_Wait.v
theories/SendSpec.v
theories/ScriptSends.v
theories/ScriptThrough.v
theories/P_Sends.v
