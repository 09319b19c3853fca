-Q theories Verif

theories/Base.v
theories/Ratio.v
theories/Calc.v
theories/State.v
theories/Controller.v
theories/Inversion.v
theories/ProcInv.v
theories/Spec.v
theories/CalcProofs.v
theories/InvProofs.v
theories/TokProofs.v
theories/AccessProofs.v
theories/ShapeProofs.v
theories/MoneyProofs.v
theories/Concrete.v
theories/ConcreteReach.v
theories/PropState.v
theories/PropAccess.v
theories/PropTok.v
theories/PropMoney.v
theories/PropLp.v
theories/PropRebalance.v
theories/PropRobust.v
theories/PropSuffix.v
theories/Serde.v
theories/SerdeProofs.v
theories/PropSerde.v
theories/Tx.v
theories/PropTx.v
theories/Periph.v
theories/PeriphSpec.v
theories/PeriphProofs.v
theories/PropCalc.v
theories/PropFlat.v
theories/Client.v
theories/ClientSpec.v
theories/ClientProofs.v
theories/PropClient.v
theories/Deploy.v
theories/Known.v
theories/Jup.v
theories/JupSpec.v
theories/JupProofs.v
theories/JupPool.v
theories/JupRefresh.v
theories/PropJup.v
theories/PropRefresh.v
theories/DeploySpec.v
theories/DeployProofs.v
theories/PropDeploy.v
theories/HistSpec.v
theories/HistProofs.v
theories/PropHistory.v
theories/Wire.v
theories/WireSpec.v
theories/WireProofs.v
theories/PropWire.v
theories/JupMeta.v
theories/PropMeta.v
theories/PropSync.v
theories/AdminSpec.v
theories/PropAdmin.v
theories/TradeSpec.v
theories/PropTrade.v
theories/PropHolder.v
theories/PropExit.v
theories/Cli.v
theories/CliSpec.v
theories/CliProofs.v
theories/PropCli.v
theories/PropCliCase.v
theories/CliSync.v
theories/PropCliSync.v
theories/PropCliSyncCase.v
theories/CliAdmin.v
theories/CliAdminSpec.v
theories/PropCliAdmin.v
theories/PropCliAdminCase.v
theories/PeriphCli.v
theories/PeriphCliSpec.v
theories/PropPeriphCli.v
theories/Rent.v
theories/RentSpec.v
theories/PropRent.v
theories/RentCli.v
theories/RentCliSpec.v
theories/PropRentCli.v
theories/PropRentCase.v
theories/LossSpec.v
theories/LossProofs.v
theories/PropLoss.v
theories/LateSpec.v
theories/PropLate.v
theories/Fee.v
theories/FeeSpec.v
theories/FeeProofs.v
theories/PropFee.v
theories/PrivSpec.v
theories/PropPriv.v
theories/QuoteSpec.v
theories/JupBack.v
theories/PropQuote.v
theories/ImpactSpec.v
theories/PropImpact.v
theories/ArbSpec.v
theories/PropArb.v
theories/SafeSpec.v
theories/PropSafe.v
theories/PropSafeFee.v
theories/FreshSpec.v
theories/FreshProofs.v
theories/PropFresh.v
theories/MoreSpec.v
theories/PropMore.v
theories/ReadSpec.v
theories/ReadProofs.v
theories/PropRead.v
